(** * C83: root's rmtree works *)
From Verif Require Export PropRmtree.
From Verif Require Import FsSpec PathProofs PathProofs2 ResProofs ResProofs2 GraphInv GraphOps ResThm OpsThm OpsThm5 OpsThm6 MountThm TreeThm GraphIo IoThm WalkThm FdThm HistThm PropFd PropTree PropOps IoSess PropRmdirs PropDirFd PropAttr.
From Coq Require Import List Bool ZArith Lia.
Import ListNotations.
Open Scope string_scope.
Open Scope list_scope.

(** ** Specification *)
(** no file has a negative size *)
Definition sizes_ok (s : fs) : Prop := forall o, (0 <= o_size (ob s o))%Z.
(** the directories below [d] have the owner's read bit *)
Definition all_readable (s : fs) (d : oid) : Prop := forall y, reach s d y -> is_dirobj s y = true -> has_bit (o_mode (ob s y)) PERM_READ = true.

Section Live.
Variable c : cfg.
Hypothesis Hl : linux_like c.
Record LV (s : fs) : Prop := { lv_j : J c s; lv_root : is_root s = true; lv_links : honest_links s; lv_lim : within_limits s; lv_pos : sizes_ok s }.
Definition fine (s s' : fs) : Prop := within_limits s' /\ forall o, o_size (ob s' o) = o_size (ob s o).
Lemma fine_refl s : LV s -> fine s s.
Proof. intros H. split; [apply lv_lim, H|reflexivity]. Qed.
Lemma fine_trans a b d : fine a b -> fine b d -> fine a d.
Proof. intros [_ A] [B1 B2]. split; [exact B1|]. intros o. rewrite B2. apply A. Qed.
Lemma LV_next K s s' : LV s -> J c s' -> trimmed K s s' -> fine s s' -> LV s'.
Proof.
  intros [A B C D E] HJ T [F1 F2]. constructor; [exact HJ| | |exact F1|intros o; rewrite F2; apply E].
  - unfold is_root in *. destruct (tm_place _ _ _ T) as (_ & _ & ->). exact B.
  - intros d n o H1 H2. destruct (tm_ent _ _ _ T d n) as [Q|[_ Q]]; [|congruence]. rewrite Q in H1.
    assert (H3 : is_link s o = true) by (unfold is_link in *; rewrite <- (proj1 (tm_kind _ _ _ T o)); exact H2).
    destruct (C d n o H1 H3) as (t & Ht). exists t. rewrite (tm_data _ _ _ T); [exact Ht|]. unfold is_dirobj. rewrite Ht. reflexivity.
Qed.
Lemma LV_win s : LV s -> c_win (f_cfg s) = false.
Proof. intros H. apply (ll_win _ (gi_lin s (J_G c Hl s (lv_j s H)))). Qed.
Lemma one_less_size s s' d n o : Ginv s -> one_less s s' d n o -> forall x, o_size (ob s' x) = o_size (ob s x).
Proof.
  intros HG OL x. destruct (Nat.eq_dec x d) as [->|N1]; [rewrite (ol_dir _ _ _ _ _ OL); reflexivity|].
  destruct (Nat.eq_dec x o) as [->|N2]; [rewrite (ol_obj _ _ _ _ _ OL); reflexivity|]. rewrite (ol_other _ _ _ _ _ OL x N1 N2). reflexivity.
Qed.

(** ** Lookups *)
Lemma root_may s names x : is_root s = true -> resolve s names false = Ok x -> Ginv s -> resolve s names true = Ok x.
Proof.
  intros Hr H HG. pose proof (Ginv_good s HG) as Hg. unfold resolve in *. apply (resolve_ok s Hg) in H. apply (resolve_ok s Hg).
  destruct H as (rr & A & B & K). exists rr. split; [exact A|]. split; [exact B|]. destruct K as [K|(K1 & K2 & K3 & _)]; [left; exact K|right].
  split; [exact K1|]. split; [exact K2|]. split; [exact K3|left; exact Hr].
Qed.
Lemma dir_true s ds d : LV s -> at_names s ds = Some d -> is_dirobj s d = true -> (forall n r, ds = n :: r -> is_drive_name n = false) ->
  resolve s (abs_path (sepc s) ds) false = Ok d /\ resolve s (abs_path (sepc s) ds) true = Ok d.
Proof.
  intros HV A B D. pose proof (J_G c Hl s (lv_j s HV)) as HG. destruct (dir_path_s s HG ds d A B D) as (_ & _ & K).
  assert (K' : resolve s (abs_path (sepc s) ds) false = Ok d).
  { apply K; [apply (j_h c s (lv_j s HV))|]. intros Q. pose proof (j_nf c s (lv_j s HV) ds Q). unfold at_names in *. congruence. }
  split; [exact K'|apply (root_may s _ d (lv_root s HV) K' HG)].
Qed.
Lemma dir_arrives s ds d : LV s -> at_names s ds = Some d -> is_dirobj s d = true -> (forall n r, ds = n :: r -> is_drive_name n = false) ->
  arrives s (abs_path (sepc s) ds) ds ds d.
Proof.
  intros HV A B D. pose proof (J_G c Hl s (lv_j s HV)) as HG. pose proof (Ginv_good s HG) as Hg. destruct (dir_true s ds d HV A B D) as [_ R].
  pose proof (at_names_ordinary s HG ds root_oid d A) as Ho.
  assert (Hnames : names_of s (abs_path (sepc s) ds) ds) by (apply (anp_names_of s _ _ Hg); [discriminate|exact Ho|apply anp_of; assumption]).
  destruct (arrives_intro s HG _ d R B) as (names & rr & AR). pose proof (names_of_det s _ _ _ (ar_names _ _ _ _ _ AR) Hnames) as ->.
  pose proof (dir_one_path s HG _ _ d B A (ar_at _ _ _ _ _ AR)) as ->. exact AR.
Qed.
(** ** The two calls that take an entry away *)
Lemma outm_ok (m : M unit) s s' : m s = (Ok tt, s') -> unit_of (aout (outm (fun _ => RUnit) m)) s = (Ok tt, s').
Proof. intros H. unfold unit_of, aout, outm, bind, ret. rewrite H. reflexivity. Qed.
Lemma spot_ord s q ds n d x : LV s -> spot s q ds n d -> entry s d n = Some x -> Forall (ordinary (sepc s)) (ds ++ [n]).
Proof.
  intros HV (_ & A & _) E. apply (at_names_ordinary s (J_G c Hl s (lv_j s HV)) _ root_oid x). change (at_names s (ds ++ [n]) = Some x).
  rewrite (at_names_snoc s ds n d A). exact E.
Qed.
Lemma leaf_ok s q ds n d x : LV s -> q <> [] -> spot s q ds n d -> entry s d n = Some x -> ents s x = [] ->
  fst (remove_object (anp s q) s) = Ok tt.
Proof.
  intros HV Hq HS Ex Hx. pose proof (J_G c Hl s (lv_j s HV)) as HG. pose proof (Ginv_good s HG) as Hg. pose proof HS as (A & B & C & D & E).
  pose proof (spot_ord s q ds n d x HV HS Ex) as Ho. destruct (names_of_anp s q _ Hg Hq A) as [_ Ea].
  destruct (dir_true s ds d HV B C E) as [R _]. rewrite Ea.
  destruct (remove_object (abs_path (sepc s) (ds ++ [n])) s) as [r s'] eqn:Er. cbn [fst].
  destruct (wp_elim _ _ _ _ _ (wp_remove_object_leaf s (abs_path (sepc s) (ds ++ [n])) ds n d x HG (anp_of s _ HG Ho) Ho R Ex Hx) Er) as [(_ & _ & Q & _)|[(_ & _ & _ & m & t & M1 & M2 & M3)|(Q & _)]]; [|exfalso|exact Q].
  - rewrite (lv_root s HV) in Q. discriminate.
  - destruct (mount_for_dev_in _ _ _ M1) as (k & Hin & _). pose proof (lv_lim s HV k m t Hin M2). pose proof (lv_pos s HV x). lia.
Qed.
Definition away (s : fs) (d : oid) (n : str) (s' : fs) : Prop :=
  LV s' /\ trimmed (fun y m => y = d /\ m = n) s s' /\ fds_kept s s' /\ entry s' d n = None /\ fine s s'.
Lemma away_intro s d n s' o : LV s -> took_away c s d n (Ok tt) s' -> s' = snd (step o s) -> (match o with Remove _ | Rmdir _ => True | _ => False end) ->
  (forall x, o_size (ob s' x) = o_size (ob s x)) -> away s d n s'.
Proof.
  intros HV (A & B & C & D) E Ho Hz. assert (F : fine s s').
  { split; [|exact Hz]. rewrite E. apply (sensible_step s o (LV_win s HV) (lv_lim s HV)). destruct o; try contradiction; exact Logic.I. }
  split; [apply (LV_next _ s s' HV A B F)|]. split; [exact B|]. split; [exact C|]. split; [apply D; reflexivity|exact F].
Qed.
Lemma rmdir_live s q ds n d x : LV s -> q <> [] -> q <> dot -> spot s q ds n d -> entry s d n = Some x -> is_dirobj s x = true -> ents s x = [] ->
  is_drive_name (hd [] (ds ++ [n])) = false ->
  exists s', unit_of (aout (step (Rmdir q))) s = (Ok tt, s') /\ away s d n s'.
Proof.
  intros HV Hq Hdot HS Ex Hx He Hdr. pose proof (J_G c Hl s (lv_j s HV)) as HG. pose proof (Ginv_good s HG) as Hg. pose proof HS as (A & B & C & D & E).
  pose proof (spot_ord s q ds n d x HV HS Ex) as Ho. destruct (names_of_anp s q _ Hg Hq A) as [_ Ea].
  assert (Hax : at_names s (ds ++ [n]) = Some x) by (rewrite (at_names_snoc s ds n d B); exact Ex).
  assert (Hdr' : forall m r, ds ++ [n] = m :: r -> is_drive_name m = false) by (intros m r Q; rewrite Q in Hdr; exact Hdr).
  destruct (dir_true s (ds ++ [n]) x HV Hax Hx Hdr') as [Rf Rt]. pose proof (leaf_ok s q ds n d x HV Hq HS Ex He) as L.
  assert (Hil : islink s (abs_path (sepc s) (ds ++ [n])) = Ok false).
  { destruct (type_total s (abs_path (sepc s) (ds ++ [n])) S_IFLNK false HG (lv_links s HV) (j_h c s (lv_j s HV))) as [b Eb]. unfold islink. rewrite Eb. f_equal.
    destruct b; [|reflexivity]. exfalso. apply (is_of_type_names s Hg) in Eb; [|apply Forall_clean, Ho]. destruct Eb as (o & Eo & Ko).
    unfold resolve_any in Eo. apply (lresolve_snoc s Hg _ ds n o Ho) in Eo. destruct Eo as (d' & Rd & _ & _ & Ed).
    destruct (dir_true s ds d HV B C E) as [_ R2]. unfold resolve in R2. fold (exists_top s) in *. assert (d' = d) as -> by congruence. assert (o = x) as -> by congruence.
    pose proof (j_h c s (lv_j s HV) x) as Q. rewrite Hx in Q. unfold is_dirm, S_ISDIR in Q. rewrite Ko in Q. discriminate. }
  destruct (remove_object (anp s q) s) as [r s'] eqn:Er. cbn [fst] in L. subst r.
  assert (Em : rmdir q false s = (Ok tt, s')).
  { unfold rmdir, bind, gets, lift, ret. destruct (str_eqb_spec q dot) as [Q|_]; [contradiction|]. cbv beta iota zeta.
    rewrite Ea. unfold confirmdir. rewrite Rt. cbn [rbind]. rewrite (gi_dirbit s HG x Hx). cbn [negb rbind]. rewrite (LV_win s HV). cbv beta iota.
    rewrite Hil. cbv beta iota. cbn [andb]. try rewrite Rt. cbv beta iota. assert (Ht : truthy_contents s x = false).
    { unfold truthy_contents. unfold ents in He. unfold is_dirobj in Hx. destruct (o_body (ob s x)); [rewrite He; reflexivity|discriminate]. }
    rewrite Ht. cbv beta iota. rewrite <- Ea. exact Er. }
  exists s'. assert (Eu : unit_of (aout (step (Rmdir q))) s = (Ok tt, s')) by (apply outm_ok, Em). split; [exact Eu|].
  assert (Es : s' = snd (step (Rmdir q) s)) by (cbn [step]; unfold outm, bind, ret; rewrite Em; reflexivity).
  apply (away_intro s d n s' (Rmdir q) HV); [apply (run_rmdir c Hl s q ds n d _ s' (lv_j s HV) HS Eu)|exact Es|exact Logic.I|].
  rewrite Ea in Er. destruct (dir_true s ds d HV B C E) as [R _].
  destruct (wp_elim _ _ _ _ _ (wp_remove_object_leaf s (abs_path (sepc s) (ds ++ [n])) ds n d x HG (anp_of s _ HG Ho) Ho R Ex He) Er) as [(_ & Q & _)|[(_ & Q & _)|(_ & Q & _)]]; [discriminate|discriminate|].
  apply (one_less_size s s' d n x HG Q).
Qed.

Lemma joinp_abs s ds n : Ginv s -> ds <> [] -> Forall (ordinary (sepc s)) (ds ++ [n]) -> joinp s (abs_path (sepc s) ds) n = abs_path (sepc s) (ds ++ [n]).
Proof.
  intros HG Hne Ho. apply Forall_app in Ho. destruct Ho as [Ho Hn]. inversion Hn as [|? ? Hn' _]; subst.
  rewrite (joinp_eq s HG _ _ Hn'), (abs_path_snoc _ ds n Hne). 
  pose proof (ends_sep_clean (f_cfg s) (gi_lin s HG) ds (Forall_clean _ _ Ho)) as E. unfold ends_with_path_separator, sep in E.
  assert (Ealt : c_alt (f_cfg s) = None) by apply (ll_alt _ (gi_lin s HG)). rewrite Ealt in E.
  assert (E1 : nonempty (abs_path (sepc s) ds) = true) by reflexivity. rewrite E1 in *.
  assert (E2 : str_eqb (abs_path (sepc s) ds) [sepc s] = false).
  { destruct (str_eqb_spec (abs_path (sepc s) ds) [sepc s]) as [Q|]; [|reflexivity]. exfalso. change [sepc s] with (abs_path (sepc s) []) in Q.
    apply (abs_path_inj (f_cfg s) (linux_like_posix _ (gi_lin s HG))) in Q; [congruence|exact Ho|constructor]. }
  rewrite E2 in E. cbn [negb andb] in E. apply orb_false_elim in E. destruct E as [E _]. rewrite E. reflexivity.
Qed.
Lemma unlink_live s ds n d x : LV s -> ds <> [] -> spot s (abs_path (sepc s) (ds ++ [n])) ds n d -> entry s d n = Some x -> is_dirobj s x = false ->
  has_bit (o_mode (ob s d)) PERM_READ = true ->
  exists s', unit_of (aout (step (Remove (abs_path (sepc s) (ds ++ [n]))))) s = (Ok tt, s') /\ away s d n s'.
Proof.
  intros HV Hds HS Ex Hx Hpr. set (q := abs_path (sepc s) (ds ++ [n])) in *. pose proof (J_G c Hl s (lv_j s HV)) as HG. pose proof (Ginv_good s HG) as Hg. pose proof HS as (A & B & C & D & E).
  pose proof (spot_ord s q ds n d x HV HS Ex) as Ho. assert (Hq : q <> []) by discriminate. pose proof (anp_of s _ HG Ho) as Ea. fold q in Ea.
  destruct (dir_true s ds d HV B C E) as [R Rt]. pose proof (leaf_ok s q ds n d x HV Hq HS Ex (file_ents s x Hx)) as L.
  pose proof (ends_sep_clean (f_cfg s) (gi_lin s HG) _ (Forall_clean _ _ Ho)) as Hend. fold (sepc s) in Hend. fold q in Hend.
  assert (Hendc : ends_with_char (c_sep (f_cfg s)) q = false).
  { unfold ends_with_path_separator, sep in Hend. assert (E1 : nonempty q = true) by reflexivity. rewrite E1 in Hend.
    assert (Ealt : c_alt (f_cfg s) = None) by apply (ll_alt _ (gi_lin s HG)). rewrite Ealt in Hend.
    assert (E2 : str_eqb q [c_sep (f_cfg s)] = false).
    { destruct (str_eqb_spec q [c_sep (f_cfg s)]) as [Q|]; [|reflexivity]. exfalso. change [c_sep (f_cfg s)] with (abs_path (sepc s) []) in Q. unfold q in Q.
      apply (abs_path_inj (f_cfg s) (linux_like_posix _ (gi_lin s HG))) in Q; [destruct ds; discriminate|exact Ho|constructor]. }
    rewrite E2 in Hend. cbn [negb andb] in Hend. apply orb_false_elim in Hend. apply Hend. }
  assert (Hl2 : lresolve s q = Ok x).
  { apply (lresolve_snoc s Hg _ ds n x Ho). exists d. repeat split; assumption. }
  destruct (remove_object (anp s q) s) as [r s'] eqn:Er. cbn [fst] in L. subst r.
  assert (Em : OpsModel.remove q s = (Ok tt, s')).
  { unfold OpsModel.remove, bind, gets, lift. rewrite Hend. unfold when, ret. cbv beta iota. rewrite Ea.
    destruct (exists_total s HG (lv_links s HV) (j_h c s (lv_j s HV)) q false) as [b Eb]. rewrite Eb. cbv beta iota.
    destruct b; [|rewrite <- Ea; exact Er].
    assert (Hdev : q <> devnull_name s) by (intros Q; apply D; split; [destruct ds; discriminate|exact Q]).
    destruct (exists_resolve s HG (j_h c s (lv_j s HV)) q false (lv_root s HV) Hdev Eb) as [o Eo]. rewrite Eo. cbv beta iota.
    destruct (S_ISDIR (o_mode (ob s o))) eqn:Ed.
    - rewrite Hl2. cbv beta iota. assert (Hlk : S_ISLNK (o_mode (ob s x)) = true).
      { destruct (S_ISLNK (o_mode (ob s x))) eqn:Ek; [reflexivity|]. exfalso.
        assert (o = x) as ->.
        { destruct (resolve_child s HG _ ds ds d n x false (dir_arrives s ds d HV B C E)) as [Rc _]; try assumption; [apply Forall_app in Ho; destruct Ho as [_ Hn']; inversion Hn'; assumption|rewrite (j_h c s (lv_j s HV)); exact C|auto|].
          rewrite (joinp_abs s ds n HG Hds Ho) in Rc. fold q in Rc. congruence. }
        pose proof (j_h c s (lv_j s HV) x) as Q. unfold is_dirm in Q. congruence. }
      rewrite Hlk. cbn [negb]. rewrite Hendc. rewrite <- Ea. exact Er.
    - unfold raise_for_sep, raise_for_sep_. rewrite Hend. rewrite <- Ea. exact Er. }
  exists s'. assert (Eu : unit_of (aout (step (Remove q))) s = (Ok tt, s')) by (apply outm_ok, Em). split; [exact Eu|].
  assert (Es : s' = snd (step (Remove q) s)) by (cbn [step]; unfold outm, bind, ret; rewrite Em; reflexivity).
  apply (away_intro s d n s' (Remove q) HV); [apply (run_remove c Hl s q ds n d _ s' (lv_j s HV) HS Eu)|exact Es|exact Logic.I|].
  rewrite Ea in Er.
  destruct (wp_elim _ _ _ _ _ (wp_remove_object_leaf s q ds n d x HG Ea Ho R Ex (file_ents s x Hx)) Er) as [(_ & Q & _)|[(_ & Q & _)|(_ & Q & _)]]; [discriminate|discriminate|].
  apply (one_less_size s s' d n x HG Q).
Qed.

(** ** Names in the directory of a descriptor *)
Lemma below_abs s ds n : ds <> [] -> below s ds n = abs_path (sepc s) (ds ++ [n]).
Proof. intros H. rewrite abs_path_snoc by exact H. unfold below. destruct ds; [congruence|reflexivity]. Qed.
Lemma holds_drive s topfd ds d n : holds s topfd ds d -> is_drive_name (hd [] (ds ++ [n])) = false.
Proof. intros (_ & _ & _ & A & B). destruct ds as [|m ds]; [congruence|]. cbn. apply (B m ds eq_refl). Qed.
Lemma at_unlink_live s topfd ds d n x : LV s -> holds s topfd ds d -> ordinary (sepc s) n -> ~ is_null s (ds ++ [n]) -> entry s d n = Some x -> is_dirobj s x = false ->
  has_bit (o_mode (ob s d)) PERM_READ = true ->
  exists s', unit_of (call_at (Some topfd) None (AtUnlink n)) s = (Ok tt, s') /\ away s d n s'.
Proof.
  intros HV HH Hn Hnn Ex Hx Hp. destruct (at_name c Hl s topfd ds d n (lv_j s HV) HH Hn Hnn) as [HS HP]. pose proof HH as (_ & _ & _ & Hne & _).
  rewrite (below_abs s ds n Hne) in HS. destruct (unlink_live s ds n d x HV Hne HS Ex Hx Hp) as (s' & A & B). exists s'. split; [|exact B].
  rewrite <- A. apply unit_of_eq. cbn [call_at]. rewrite <- (below_abs s ds n Hne). apply (at_call_eq s topfd n _ Remove FctUnlink), HP; discriminate.
Qed.
Lemma at_rmdir_live s topfd ds d n x : LV s -> holds s topfd ds d -> ordinary (sepc s) n -> ~ is_null s (ds ++ [n]) -> entry s d n = Some x -> is_dirobj s x = true ->
  ents s x = [] ->
  exists s', unit_of (call_at (Some topfd) None (AtRmdir n)) s = (Ok tt, s') /\ away s d n s'.
Proof.
  intros HV HH Hn Hnn Ex Hx He. destruct (at_name c Hl s topfd ds d n (lv_j s HV) HH Hn Hnn) as [HS HP]. pose proof HH as (_ & _ & _ & Hne & _).
  rewrite (below_abs s ds n Hne) in HS.
  assert (Hdot : abs_path (sepc s) (ds ++ [n]) <> dot) by (intros Q; pose proof (abs_not_dot s (ds ++ [n]) (J_G c Hl s (lv_j s HV))) as W; rewrite Q in W; discriminate).
  destruct (rmdir_live s (abs_path (sepc s) (ds ++ [n])) ds n d x HV ltac:(discriminate) Hdot HS Ex Hx He (holds_drive s topfd ds d n HH)) as (s' & A & B). exists s'. split; [|exact B].
  rewrite <- A. apply unit_of_eq. cbn [call_at]. rewrite <- (below_abs s ds n Hne). apply (at_call_eq s topfd n _ Rmdir FctRmdir), HP; discriminate.
Qed.
(** ** Scanning *)
Definition listed (s : fs) (ds : list str) (d : oid) (e : dirent) : Prop :=
  here s ds e /\ exists x, entry s d (de_name e) = Some x /\ de_is_dir e false = is_dirobj s x.
Lemma entry_here s ds d n x : LV s -> at_names s ds = Some d -> entry s d n = Some x -> ordinary (sepc s) n /\ ~ is_null s (ds ++ [n]).
Proof.
  intros HV A E. split; [apply (gi_ent s (J_G c Hl s (lv_j s HV)) d n x (entry_In _ _ _ _ E))|]. intros Q. pose proof (j_nf c s (lv_j s HV) _ Q) as Z.
  rewrite (at_names_snoc s ds n d A) in Z. congruence.
Qed.
Lemma scan_one s topfd ds d a n x : LV s -> holds s topfd ds d -> has_bit (o_mode (ob s d)) PERM_READ = true -> entry s d n = Some x ->
  exists e, scan_entry s a (abs_path (sepc s) ds) n = Ok e /\ de_name e = n /\ listed s ds d e.
Proof.
  intros HV HH Hp Ex. pose proof (J_G c Hl s (lv_j s HV)) as HG. pose proof HH as (_ & A & B & Hne & Hdr). destruct (entry_here s ds d n x HV A Ex) as [Hn Hnn].
  destruct (dir_true s ds d HV A B Hdr) as [_ Rt]. assert (Hq : abs_path (sepc s) ds <> []) by discriminate.
  unfold scan_entry. pose proof (islink_child s HG _ n d Hq Hn Rt B Hp) as Hil. rewrite Hil, Ex.
  destruct (type_total s (joinp s (abs_path (sepc s) ds) n) S_IFDIR true HG (lv_links s HV) (j_h c s (lv_j s HV))) as [b Eb].
  unfold isdir. rewrite Eb. cbn [rbind]. eexists. split; [reflexivity|]. split; [reflexivity|]. split; [split; [exact Hn|split; [exact Hnn|reflexivity]]|].
  exists x. split; [exact Ex|]. unfold de_is_dir. cbn [de_isdir de_islink orb].
  destruct (is_link s x) eqn:Hlk.
  - rewrite andb_false_r. destruct (is_dirobj s x) eqn:Hx; [|reflexivity]. pose proof (gd_dnl s (Ginv_good s HG) x Hx). congruence.
  - rewrite andb_true_r. destruct (resolve_child s HG _ ds ds d n x true (dir_arrives s ds d HV A B Hdr) Hn Ex Hlk Hnn Hnn) as [Rc _]; [rewrite (j_h c s (lv_j s HV)); exact B|left; apply (lv_root s HV)|].
    pose proof (isdir_of_resolve s HG _ n Hq Hn x Rc) as Z. unfold isdir in Z. rewrite Eb in Z. injection Z as ->. apply (j_h c s (lv_j s HV)).
Qed.
Lemma scan_live s topfd ds d : LV s -> holds s topfd ds d -> has_bit (o_mode (ob s d)) PERM_READ = true ->
  exists es, scandir s (PFd topfd) = Ok es /\ map de_name es = map fst (ents s d) /\ Forall (listed s ds d) es.
Proof.
  intros HV HH Hp. pose proof (J_G c Hl s (lv_j s HV)) as HG. pose proof (holds_ordinary c Hl s _ _ _ (lv_j s HV) HH) as Ho.
  pose proof HH as ((w & A & B & C) & D & E & F & G). destruct (dir_path_s s HG ds d D E G) as (P & _ & _). destruct (dir_true s ds d HV D E G) as [_ Rt].
  unfold scandir. rewrite (LV_win s HV). unfold fd_object. rewrite (slot_get s topfd w [] A). cbn [rbind]. rewrite B, C. cbn [rbind]. rewrite P. cbn [rbind fst snd].
  rewrite (anp_of s ds HG Ho). unfold confirmdir. rewrite Rt. cbn [rbind]. rewrite (gi_dirbit s HG d E). cbn [negb rbind].
  assert (Q : exists es, mapm (scan_entry s [] (abs_path (sepc s) ds)) (map fst (ents s d)) = Ok es /\ map de_name es = map fst (ents s d) /\ Forall (listed s ds d) es).
  { assert (Hin : forall n, In n (map fst (ents s d)) -> exists x, entry s d n = Some x).
    { intros n Q. apply in_map_iff in Q. destruct Q as ([k o] & <- & Q). cbn. destruct (entry s d k) eqn:Z; [eauto|]. exfalso. apply (entry_some s d k o Q Z). }
    induction (map fst (ents s d)) as [|n l IH]; [exists []; repeat split; constructor|].
    destruct (Hin n (or_introl eq_refl)) as (x & Ex). destruct (scan_one s topfd ds d [] n x HV HH Hp Ex) as (e & E1 & E2 & E3).
    destruct IH as (es & K1 & K2 & K3); [intros m Hm; apply Hin; right; exact Hm|]. exists (e :: es). cbn [mapm]. rewrite E1. cbn [rbind]. rewrite K1. cbn [rbind].
    split; [reflexivity|]. split; [cbn; rewrite E2, K2; reflexivity|constructor; assumption]. }
  unfold ents in *. unfold is_dirobj in E. destruct (o_body (ob s d)) as [l|]; [exact Q|discriminate].
Qed.

(** ** Opening *)
Lemma fine_step s s' o : LV s -> sensible s o -> s' = snd (step o s) -> f_heap s' = f_heap s -> fine s s'.
Proof.
  intros HV Ho -> Hh. split; [apply (sensible_step s o (LV_win s HV) (lv_lim s HV) Ho)|]. intros x. unfold ob. rewrite Hh. reflexivity.
Qed.
Lemma opened_state q s fd s1 : opened_fd (aout (step (OsOpen q rm_flags None []))) s = (Ok fd, s1) -> s1 = snd (step (OsOpen q rm_flags None []) s).
Proof.
  unfold opened_fd, bind, aout, bind. destruct (step (OsOpen q rm_flags None []) s) as [[o|e0] t]; unfold ret, raise; cbn [snd]; [destruct o; unfold ret, raise; congruence|discriminate].
Qed.
Lemma at_open_live s topfd ds d n x : LV s -> holds s topfd ds d -> ordinary (sepc s) n -> ~ is_null s (ds ++ [n]) -> entry s d n = Some x -> is_dirobj s x = true ->
  exists fd s1, opened_fd (call_at (Some topfd) None (AtOpen n rm_flags None [])) s = (Ok fd, s1) /\ got_dir s s1 x fd /\ LV s1 /\ fine s s1.
Proof.
  intros HV HH Hn Hnn Ex Hx. pose proof (J_G c Hl s (lv_j s HV)) as HG. pose proof HH as (_ & A & B & Hne & Hdr). destruct (dir_true s ds d HV A B Hdr) as [_ Rt].
  assert (Hax : at_names s (ds ++ [n]) = Some x) by (rewrite (at_names_snoc s ds n d A); exact Ex).
  assert (Hdr' : forall m r, ds ++ [n] = m :: r -> is_drive_name m = false) by (intros m r Q; pose proof (holds_drive s topfd ds d n HH) as W; rewrite Q in W; exact W).
  destruct (dir_true s (ds ++ [n]) x HV Hax Hx Hdr') as [_ Rx].
  assert (Ec : opened_fd (call_at (Some topfd) None (AtOpen n rm_flags None [])) s = opened_fd (aout (step (OsOpen (below s ds n) rm_flags None []))) s).
  { destruct (at_name c Hl s topfd ds d n (lv_j s HV) HH Hn Hnn) as [_ HP]. apply opened_fd_eq. cbn [call_at].
    apply (at_call_eq s topfd n _ (fun q => OsOpen q rm_flags None []) FctOpen), HP; discriminate. }
  destruct (opened_fd (call_at (Some topfd) None (AtOpen n rm_flags None [])) s) as [r0 s1] eqn:Eo.
  destruct (at_open c Hl s topfd ds d n x r0 s1 (lv_j s HV) HH Hn Hnn Ex Hx Rt Eo) as [(_ & _ & e & Q)|(fd & -> & G & HJ1)]; [congruence|].
  exists fd, s1. split; [reflexivity|]. split; [exact G|]. symmetry in Ec. apply opened_state in Ec. pose proof G as (w & _ & _ & _ & Gh & Gc).
  pose proof (fine_step s s1 (OsOpen (below s ds n) rm_flags None []) HV Logic.I Ec Gh) as F. split; [|exact F]. apply (LV_next (fun _ _ => True) s s1 HV HJ1 (tm_heap _ s s1 Gh Gc) F).
Qed.
(** the directory of the entry, removed after it was opened *)
Lemma opened_live ign st fd sub rm s s1 x e n : LV s -> got_dir s s1 x fd -> LV s1 -> fine s s1 -> samestat st (stat_of s x) = true ->
  (exists s2, sub s1 = (Ok tt, s2) /\ LV s2 /\ trimmed (fun y _ => reach s1 x y) s1 s2 /\ fds_kept s1 s2 /\ fine s1 s2 /\ ents s2 x = []) ->
  (forall s3, LV s3 -> trimmed (fun y _ => reach s x y) s s3 -> fds_kept s s3 -> ents s3 x = [] -> exists s4, rm s3 = (Ok tt, s4) /\ away s3 e n s4) ->
  exists s', rm_opened ign st fd sub rm s1 = (Ok tt, s') /\ LV s' /\ fine s s' /\ entry s' e n = None.
Proof.
  intros HV G HV1 F1 Hsame (s2 & Es & HV2 & T2 & K2 & F2 & He2) Hrm. pose proof G as (w & O & Gk & Go & Gh & Gc).
  assert (Hst : stat_of s1 x = stat_of s x) by (unfold stat_of, st_size, ob; rewrite Gh; destruct Gc as (-> & _); reflexivity).
  unfold rm_opened. unfold fstat, fd_object. rewrite (slot_get s1 fd w [] (op_slot _ _ _ _ O)). cbn [rbind]. rewrite Gk, Go. cbn [rbind]. rewrite Hst, Hsame, Es.
  pose proof K2 as [K2a K2b]. destruct (K2a fd [w] (op_slot _ _ _ _ O)) as [Hs Hw]. specialize (Hw w (or_introl eq_refl)).
  assert (Hk : w_kind (wr s2 w) = WDirW) by (rewrite (stat_kind _ _ Hw); exact Gk).
  destruct (close_call c s2 fd w (lv_j s2 HV2) Hs Hk) as (C1 & C2 & C3 & C4 & C5). set (s3 := snd (rm_close fd s2)) in *.
  assert (F3 : fine s2 s3).
  { apply (fine_step s2 s3 (OsClose fd) HV2 Logic.I); [|exact C3]. unfold s3, rm_close, bind, ret. destruct (step (OsClose fd) s2) as [[o|e0] t]; reflexivity. }
  assert (HV3 : LV s3) by (apply (LV_next (fun _ _ => True) s2 s3 HV2 C2 (tm_heap _ s2 s3 C3 C4) F3)).
  assert (T3 : trimmed (fun y _ => reach s x y) s s3) by (apply (trimmed_via _ s s1 s2 s3 x Gh Gc T2 C3 C4); auto).
  destruct (Hrm s3 HV3 T3 (fds_closed s s1 s2 s3 x fd G (j_f c s (lv_j s HV)) K2 C5)) as (s4 & R1 & R2 & _ & _ & R5 & R6).
  { unfold ents, ob. rewrite C3. exact He2. }
  exists s4. unfold bind. rewrite (guarded_ok ign _ _ _ C1). rewrite (guarded_ok ign _ _ _ R1). split; [reflexivity|]. split; [exact R2|].
  split; [|exact R5]. apply (fine_trans s s1 s4 F1), (fine_trans s1 s2 s4 F2), (fine_trans s2 s3 s4 F3 R6).
Qed.

(** ** The loop *)
Lemma same_opt_refl a : same_opt a a = true.
Proof. destruct a; [apply Nat.eqb_refl|reflexivity]. Qed.
Lemma samestat_refl st : samestat st st = true.
Proof. unfold samestat. rewrite !same_opt_refl. reflexivity. Qed.
Definition rec_live (rec : Z -> M unit) (k : nat) : Prop := forall fd s ds x, LV s -> holds s fd ds x -> all_readable s x -> depth_le s x k ->
  exists s', rec fd s = (Ok tt, s') /\ LV s' /\ fine s s' /\ ents s' x = [].
Lemma depth_next K s s' d k : trimmed K s s' -> depth_le s d k -> depth_le s' d k.
Proof. intros T D names o E. apply (D names o), (tm_tree _ _ _ T), E. Qed.
Lemma readable_next K s s' d : trimmed K s s' -> all_readable s d -> all_readable s' d.
Proof.
  intros T A y Hr Hd. destruct (tm_kind _ _ _ T y) as (E1 & E2 & _). rewrite E1. apply A; [apply (tm_reach _ _ _ _ _ T Hr)|congruence].
Qed.
Lemma listed_next s s' ds d e n : trimmed (fun y _ => reach s d y) s s' -> (forall m, m <> n -> entry s' d m = entry s d m) -> de_name e <> n ->
  listed s ds d e -> listed s' ds d e.
Proof.
  intros T H Hne (A & x & B & C). split; [apply (here_next _ s s' ds e T A)|]. exists x. rewrite H by exact Hne. rewrite (proj1 (proj2 (tm_kind _ _ _ T x))). auto.
Qed.
Lemma holds_opened s s1 topfd ds d n x fd : holds s topfd ds d -> entry s d n = Some x -> is_dirobj s x = true -> got_dir s s1 x fd -> holds s1 fd (ds ++ [n]) x.
Proof.
  intros (_ & A & B & F & D) Ex Hx (w & O & Gk & Go & Gh & Gc). assert (Hob : forall y, ob s1 y = ob s y) by (intros y; unfold ob; rewrite Gh; reflexivity).
  split; [exists w; split; [apply (op_slot _ _ _ _ O)|auto]|]. split; [|split; [unfold is_dirobj; rewrite Hob; exact Hx|split; [destruct ds; discriminate|]]].
  - assert (Ht : forall names z, tree_at s1 z names = tree_at s z names).
    { induction names as [|k names IH]; intros z; [reflexivity|]. cbn [tree_at]. unfold entry, ents. rewrite Hob. fold (ents s z). fold (entry s z k). destruct (entry s z k); auto. }
    unfold at_names. rewrite Ht. fold (at_names s (ds ++ [n])). rewrite (at_names_snoc s ds n d A). exact Ex.
  - intros m r1 Q. destruct ds as [|k ds]; [congruence|]. injection Q as <- _. apply (D k ds eq_refl).
Qed.
Lemma each_live ign rec k topfd ds d : recs c ign rec -> rec_live rec k ->
  forall es s, LV s -> holds s topfd ds d -> Forall (listed s ds d) es -> NoDup (map de_name es) ->
  all_readable s d -> depth_le s d (S k) -> exists s', rm_each rec ign topfd es s = (Ok tt, s') /\ LV s' /\ fine s s' /\
    forall e, In e es -> entry s' d (de_name e) = None.
Proof.
  intros Hrec Hlive. induction es as [|e es IH]; intros s HV HH HF HN HR HD.
  - exists s. split; [reflexivity|]. split; [exact HV|split; [apply fine_refl, HV|intros e []]].
  - inversion HF as [|? ? He HF']; subst. inversion HN as [|? ? Hni HN']; subst. cbn [rm_each]. unfold bind.
    match goal with |- exists s', (let (_, _) := ?b in _) = _ /\ _ => assert (Q : exists s1, b = (Ok tt, s1) /\ LV s1 /\ fine s s1 /\ entry s1 d (de_name e) = None) end.
    { pose proof He as ((Hn & Hnn & Ha) & x & Ex & Hdx). rewrite Hdx. pose proof HH as (_ & A & B & Hne & Hdr). pose proof (J_G c Hl s (lv_j s HV)) as HG.
      assert (Hp : has_bit (o_mode (ob s d)) PERM_READ = true) by (apply HR; [apply reach_refl|exact B]).
      destruct (is_dirobj s x) eqn:Hx.
      - destruct (dir_true s ds d HV A B Hdr) as [_ Rt].
        assert (Est : de_stat s e false = Ok (stat_of s x)).
        { unfold de_stat. rewrite Ha, (lresolve_child s HG) by (discriminate || exact Hn). rewrite Rt. cbn [rbind]. rewrite B, Hp. cbn [negb]. rewrite Ex. cbn [rbind]. rewrite (LV_win s HV). reflexivity. }
        rewrite Est. assert (Hm : S_ISDIR (ss_mode (stat_of s x)) = true) by (pose proof (j_h c s (lv_j s HV) x) as W; rewrite Hx in W; exact W). rewrite Hm.
        destruct (at_open_live s topfd ds d (de_name e) x HV HH Hn Hnn Ex Hx) as (fd & s1 & Eo & G & HV1 & F1). rewrite Eo.
        assert (Hh1 : holds s1 fd (ds ++ [de_name e]) x) by (apply (holds_opened s s1 topfd ds d (de_name e) x fd HH Ex Hx G)).
        pose proof G as (w & O & Gk & Go & Gh & Gc).
        assert (T1 : trimmed (fun _ _ => True) s s1) by (apply tm_heap; assumption).
        destruct (opened_live ign (stat_of s x) fd (rec fd) (unit_of (call_at (Some topfd) None (AtRmdir (de_name e)))) s s1 x d (de_name e) HV G HV1 F1 (samestat_refl _)) as (s' & R1 & R2 & R3 & R4).
        + destruct (Hlive fd s1 (ds ++ [de_name e]) x HV1 Hh1) as (s2 & S1 & S2 & S3 & S4).
          * apply (readable_next _ s s1 x T1). intros y Hy Hd. apply HR; [apply (reach_step s d (de_name e) x y Ex Hy)|exact Hd].
          * apply (depth_next _ s s1 x k T1). apply (depth_child s d (de_name e) x k Ex HD).
          * exists s2. destruct (Hrec fd s1 _ x _ s2 (lv_j s1 HV1) Hh1 S1) as (_ & E2 & E3 & _). split; [exact S1|]. split; [exact S2|]. split; [exact E2|]. split; [exact E3|]. split; [exact S3|exact S4].
        + intros s3 HV3 T3 K3 He3. assert (Hin : forall y (m : str), reach s x y -> reach s d y) by (intros y m Z; apply (reach_step s d (de_name e) x y Ex Z)).
          assert (T3' : trimmed (fun y _ => reach s d y) s s3) by (apply (trimmed_weaken _ _ _ _ Hin T3)).
          apply (at_rmdir_live s3 topfd ds d (de_name e) x HV3); [apply (holds_kept c Hl s s3 topfd ds d (lv_j s HV) HH T3' K3)| | | | |exact He3].
          * rewrite (tm_cfg _ _ _ T3). exact Hn.
          * intros Z. apply Hnn, (tm_null _ _ _ _ T3), Z.
          * destruct (tm_ent _ _ _ T3 d (de_name e)) as [Z|[Z _]]; [rewrite Z; exact Ex|]. exfalso. destruct Z as (b & Z).
            pose proof (gi_acyc s HG d (de_name e :: b)) as W. cbn [tree_at] in W. rewrite Ex in W. specialize (W Z). discriminate.
          * rewrite (proj1 (proj2 (tm_kind _ _ _ T3 x))). exact Hx.
        + exists s'. auto.
      - destruct (at_unlink_live s topfd ds d (de_name e) x HV HH Hn Hnn Ex Hx Hp) as (s' & R1 & R2 & _ & _ & R4 & R3). exists s'.
        split; [apply guarded_ok, R1|]. auto. }
    destruct Q as (s1 & E1 & HV1 & F1 & N1). rewrite E1. pose proof E1 as E1'.
    apply (each_one c Hl rec ign topfd ds d e s _ s1 Hrec (lv_j s HV) HH (proj1 He)) in E1'. destruct E1' as (_ & T1 & K1 & _ & H1).
    pose proof (holds_kept c Hl s s1 topfd ds d (lv_j s HV) HH T1 K1) as HH1.
    assert (HF1 : Forall (listed s1 ds d) es).
    { rewrite Forall_forall in HF' |- *. intros e2 H2. apply (listed_next s s1 ds d e2 (de_name e) T1 H1); [|apply HF', H2].
      intros Z. apply Hni. rewrite <- Z. apply in_map, H2. }
    destruct (IH s1 HV1 HH1 HF1 HN') as (s' & R1 & R2 & R3 & R4).
    + apply (readable_next _ s s1 d T1 HR).
    + apply (depth_next _ s s1 d _ T1 HD).
    + exists s'. split; [exact R1|]. split; [exact R2|]. split; [apply (fine_trans s s1 s' F1 R3)|]. intros e2 [<-|H2]; [|apply R4, H2].
      destruct (each_run c Hl rec ign topfd ds d Hrec es s1 _ s' (lv_j s1 HV1) HH1 (Forall_impl _ (fun a W => proj1 W) HF1) R1) as (_ & T2 & _).
      destruct (tm_ent _ _ _ T2 d (de_name e)) as [Z|[_ Z]]; [rewrite Z; exact N1|exact Z].
Qed.

Lemma fd_live ign : forall fuel k, k < fuel -> rec_live (rm_fd fuel ign) k.
Proof.
  induction fuel as [|fuel IH]; intros k Hk fd s ds x HV HH HR HD; [lia|].
  cbn [rm_fd]. pose proof HH as (_ & A & B & Hne & Hdr). pose proof (J_G c Hl s (lv_j s HV)) as HG.
  destruct (scan_live s fd ds x HV HH (HR x (reach_refl s x) B)) as (es & E1 & E2 & E3). rewrite E1.
  assert (HN : NoDup (map de_name es)) by (rewrite E2; apply (gi_nodup s HG)).
  assert (Q : exists s', rm_each (rm_fd fuel ign) ign fd es s = (Ok tt, s') /\ LV s' /\ fine s s' /\ forall e, In e es -> entry s' x (de_name e) = None).
  { destruct k as [|k].
    - assert (es = []) as ->.
      { destruct es as [|e es]; [reflexivity|]. exfalso. inversion E3 as [|? ? (_ & z & Ez & _) _]; subst. specialize (HD [de_name e] z). cbn [tree_at] in HD. rewrite Ez in HD. specialize (HD eq_refl). cbn in HD. lia. }
      exists s. split; [reflexivity|]. split; [exact HV|]. split; [apply fine_refl, HV|intros e []].
    - apply (each_live ign (rm_fd fuel ign) k fd ds x (fd_run c Hl ign fuel) (IH k ltac:(lia)) es s HV HH E3 HN HR HD). }
  destruct Q as (s' & R1 & R2 & R3 & R4). exists s'. split; [exact R1|]. split; [exact R2|]. split; [exact R3|]. apply no_entry. intros m.
  destruct (each_run c Hl (rm_fd fuel ign) ign fd ds x (fd_run c Hl ign fuel) es s _ s' (lv_j s HV) HH (Forall_impl _ (fun a W => proj1 W) E3) R1) as (_ & T2 & _).
  destruct (entry s x m) as [z|] eqn:Ez.
  - assert (Hin : In m (map de_name es)) by (rewrite E2; apply in_map_iff; exists (m, z); split; [reflexivity|apply entry_In, Ez]).
    apply in_map_iff in Hin. destruct Hin as (e & <- & He). apply R4, He.
  - destruct (tm_ent _ _ _ T2 x m) as [Z|[_ Z]]; congruence.
Qed.
(** ** The whole call *)
Lemma rmtree_live fuel ign s pre n e x : LV s -> at_names s pre = Some e -> entry s e n = Some x -> is_dirobj s x = true ->
  (forall m r, pre ++ [n] = m :: r -> is_drive_name m = false) -> has_bit (o_mode (ob s e)) PERM_READ = true ->
  all_readable s x -> depth_le s x fuel -> exists s', rmtree (S fuel) ign (abs_path (sepc s) (pre ++ [n])) s = (Ok tt, s') /\ entry s' e n = None.
Proof.
  intros HV Ha Ex Hx Hdr Hp HR HD. pose proof (J_G c Hl s (lv_j s HV)) as HG. pose proof (Ginv_good s HG) as Hg. set (p := abs_path (sepc s) (pre ++ [n])).
  assert (Hax : at_names s (pre ++ [n]) = Some x) by (rewrite (at_names_snoc s pre n e Ha); exact Ex).
  pose proof (at_names_ordinary s HG _ root_oid x Hax) as Ho.
  assert (Hop : Forall (ordinary (sepc s)) pre) by (apply Forall_app in Ho; apply Ho).
  assert (Hnn : ~ is_null s (pre ++ [n])) by (intros Q; pose proof (j_nf c s (lv_j s HV) _ Q); congruence).
  assert (Hde : is_dirobj s e = true) by (unfold entry, ents in Ex; unfold is_dirobj; destruct (o_body (ob s e)); [reflexivity|discriminate]).
  assert (Hdr0 : forall m r0, pre = m :: r0 -> is_drive_name m = false) by (intros m r0 ->; apply (Hdr m (r0 ++ [n]) eq_refl)).
  destruct (dir_true s pre e HV Ha Hde Hdr0) as [_ Re]. destruct (dir_true s (pre ++ [n]) x HV Hax Hx Hdr) as [_ Rx]. fold p in Rx.
  assert (Hn : ordinary (sepc s) n) by (apply Forall_app in Ho; destruct Ho as [_ Ho]; inversion Ho; assumption).
  assert (Hnames : forall names, Forall (ordinary (sepc s)) names -> names_of s (abs_path (sepc s) names) names).
  { intros names Hf. apply (anp_names_of s _ _ Hg); [discriminate|exact Hf|apply anp_of; assumption]. }
  assert (Hex : exists_ s p false = Ok true) by (apply (child_exists c Hl s pre e n x (lv_j s HV) Ha Hde Hop Re Hn Hnn Ex Hx)).
  assert (Est : stat s (PStr p) false = Ok (stat_of s x)).
  { unfold stat, stat_obj. cbn [resolve_arg]. unfold resolve_follow, resolve_any.
    assert (Elr : lresolve_ (exists_top s) s p = Ok x) by (apply (lresolve_snoc s Hg _ pre n x Ho); exists e; repeat split; assumption).
    rewrite Elr. cbn [rbind]. rewrite (lv_root s HV). cbn [negb rbind]. unfold raise_for_sep. rewrite (raise_for_sep_names s Hg _ _ _ _ _ (Forall_clean _ _ Ho)). reflexivity. }
  unfold rmtree. rewrite Est.
  assert (Ec : opened_fd (call_at None None (AtOpen p rm_flags None [])) s = opened_fd (aout (step (OsOpen p rm_flags None []))) s) by (apply opened_fd_eq; reflexivity).
  destruct (opened_fd (call_at None None (AtOpen p rm_flags None [])) s) as [r0 s1] eqn:Eo. symmetry in Ec.
  destruct (open_call_dir c Hl s p x r0 s1 (lv_j s HV) Hex) as [(_ & _ & y & Q)|(fd & -> & G)]; [intros o Q; congruence|exact Hx|exact Ec|congruence|].
  apply opened_state in Ec. pose proof G as (w & O & Gk & Go & Gh & Gc).
  assert (HJ1 : J c s1) by (apply (got_next c s s1 p x fd (lv_j s HV) G), Ec).
  pose proof (fine_step s s1 (OsOpen p rm_flags None []) HV Logic.I Ec Gh) as F1.
  assert (T1 : trimmed (fun _ _ => True) s s1) by (apply tm_heap; assumption).
  pose proof (LV_next _ s s1 HV HJ1 T1 F1) as HV1.
  assert (Hob : forall y, ob s1 y = ob s y) by (intros y; unfold ob; rewrite Gh; reflexivity).
  assert (Hh1 : holds s1 fd (pre ++ [n]) x).
  { split; [exists w; split; [apply (op_slot _ _ _ _ O)|auto]|]. split; [|split; [unfold is_dirobj; rewrite Hob; exact Hx|split; [destruct pre; discriminate|exact Hdr]]].
    assert (Ht : forall names z, tree_at s1 z names = tree_at s z names).
    { induction names as [|k names IH]; intros z; [reflexivity|]. cbn [tree_at]. unfold entry, ents. rewrite Hob. fold (ents s z). fold (entry s z k). destruct (entry s z k); auto. }
    unfold at_names. rewrite Ht. exact Hax. }
  destruct (opened_live ign (stat_of s x) fd (rm_fd (S fuel) ign fd) (unit_of (call_at None None (AtRmdir p))) s s1 x e n HV G HV1 F1 (samestat_refl _)) as (s' & R1 & R2 & R3 & R4).
  - destruct (fd_live ign (S fuel) fuel (Nat.lt_succ_diag_r fuel) fd s1 (pre ++ [n]) x HV1 Hh1 (readable_next _ s s1 x T1 HR) (depth_next _ s s1 x _ T1 HD)) as (s2 & S1 & S2 & S3 & S4).
    exists s2. destruct (fd_run c Hl ign (S fuel) fd s1 _ x _ s2 (lv_j s1 HV1) Hh1 S1) as (_ & E2 & E3 & _). auto 6.
  - intros s3 HV3 T3 K3 He3.
    assert (Hx3 : entry s3 e n = Some x /\ at_names s3 pre = Some e).
    { assert (Hkeep : forall a m z, entry s a m = Some z -> (exists q r, pre ++ [n] = q ++ m :: r /\ at_names s q = Some a) -> entry s3 a m = Some z).
      { intros a m z Hz (q & r & Eq & Hqa). destruct (tm_ent _ _ _ T3 a m) as [W|[W _]]; [congruence|]. exfalso. destruct W as (b & Hb).
        assert (X : at_names s ((pre ++ [n]) ++ b) = Some a) by (unfold at_names in *; rewrite tree_at_app, Hax; exact Hb).
        assert (Hd : is_dirobj s a = true) by (unfold entry, ents in Hz; unfold is_dirobj; destruct (o_body (ob s a)); [reflexivity|discriminate]).
        pose proof (dir_one_path s HG _ _ a Hd X Hqa) as Y. rewrite Eq in Y. apply (f_equal (@length str)) in Y. rewrite !app_length in Y. cbn [length] in Y. lia. }
      split; [apply (Hkeep e n x Ex); exists pre, []; split; [reflexivity|exact Ha]|].
      assert (Hup : forall post q a, pre = q ++ post -> at_names s q = Some a -> at_names s3 q = Some a -> at_names s3 pre = Some e).
      { induction post as [|m post IH]; intros q a Eq Hqa Hqa'.
        - rewrite app_nil_r in Eq. subst q. congruence.
        - assert (Hz : exists z, entry s a m = Some z).
          { pose proof Ha as D. rewrite Eq in D. unfold at_names in D, Hqa. rewrite tree_at_app, Hqa in D. cbn [tree_at] in D. destruct (entry s a m); [eauto|discriminate]. }
          destruct Hz as [z Hz]. assert (En : entry s3 a m = Some z) by (apply (Hkeep a m z Hz); exists q, (post ++ [n]); split; [rewrite Eq, <- app_assoc; reflexivity|exact Hqa]).
          apply (IH (q ++ [m]) z); [rewrite <- app_assoc; exact Eq|rewrite (at_names_snoc s q m a Hqa); exact Hz|rewrite (at_names_snoc s3 q m a Hqa'); exact En]. }
      apply (Hup pre [] root_oid); reflexivity. }
    destruct Hx3 as [Hx3 Ha3].
    assert (Hdot : p <> dot) by (intros Q; pose proof (abs_not_dot s (pre ++ [n]) HG) as W; fold p in W; rewrite Q in W; discriminate).
    destruct (rmdir_live s3 p pre n e x HV3 ltac:(discriminate) Hdot) as (s4 & R1 & R2); [|exact Hx3|rewrite (proj1 (proj2 (tm_kind _ _ _ T3 x))); exact Hx|exact He3|destruct pre; apply (Hdr _ _ eq_refl)|exists s4; split; [exact R1|exact R2]].
    split; [|split; [exact Ha3|split; [rewrite (proj1 (proj2 (tm_kind _ _ _ T3 e))); exact Hde|split; [|exact Hdr0]]]].
    + unfold names_of. destruct (tm_place _ _ _ T3) as (-> & -> & _). apply Hnames, Ho.
    + intros W. apply Hnn, (tm_null _ _ _ _ T3), W.
  - exists s'. split; [exact R1|exact R4].
Qed.
End Live.

(** ** C83 *)
(** Root's rmtree of a directory, under its absolute path, works, and nothing is
    left of the tree.  Directories that cannot be read are an obstacle even for
    root; the fuel must allow for the depth. *)
Theorem C83_rmtree_done_partial : forall c s hs fuel ign pre n e x, linux_like c -> session natural_fds c s hs -> null_free s -> honest_dirs s ->
  honest_links s -> is_root s = true -> within_limits s -> sizes_ok s ->
  at_names s pre = Some e -> entry s e n = Some x -> is_dirobj s x = true ->
  (forall m r, pre ++ [n] = m :: r -> is_drive_name m = false) ->
  has_bit (o_mode (ob s e)) PERM_READ = true -> all_readable s x ->
  (forall names y, tree_at s x names = Some y -> length names < fuel) ->
  exists s', rmtree fuel ign (abs_path (sepc s) (pre ++ [n])) s = (Ok tt, s') /\ entry s' e n = None /\
    (forall y, reach s x y -> ents s' y = []) /\ trimmed (fun y m => reach s x y \/ (y = e /\ m = n)) s s' /\ fds_kept s s'.
Proof.
  intros c s hs fuel ign pre n e x Hl Hs Hn Hh HL HR HW HZ A1 A2 A3 A4 A5 A6 A7.
  pose proof (session_J c s hs Hl Hs Hn Hh) as HJ. assert (HV : LV c s) by (constructor; assumption).
  destruct fuel as [|fuel]; [exfalso; specialize (A7 [] x eq_refl); cbn in A7; lia|].
  assert (HD : depth_le s x fuel) by (intros names y H; specialize (A7 names y H); lia).
  destruct (rmtree_live c Hl fuel ign s pre n e x HV A1 A2 A3 A4 A5 A6 HD) as (s' & E & D). exists s'. split; [exact E|]. split; [exact D|].
  pose proof (J_G c Hl s HJ) as HG. pose proof (Ginv_good s HG) as Hg.
  assert (Hax : at_names s (pre ++ [n]) = Some x) by (rewrite (at_names_snoc s pre n e A1); exact A2).
  pose proof (at_names_ordinary s HG _ root_oid x Hax) as Ho.
  assert (Hnames : names_of s (abs_path (sepc s) (pre ++ [n])) (pre ++ [n])) by (apply (anp_names_of s _ _ Hg); [discriminate|exact Ho|apply anp_of; assumption]).
  assert (Hop : Forall (ordinary (sepc s)) pre) by (apply Forall_app in Ho; apply Ho).
  assert (Hde : is_dirobj s e = true) by (unfold entry, ents in A2; unfold is_dirobj; destruct (o_body (ob s e)); [reflexivity|discriminate]).
  assert (Hnn : ~ is_null s (pre ++ [n])) by (intros Q; pose proof (j_nf c s HJ _ Q); congruence).
  assert (Hdr0 : forall m r0, pre = m :: r0 -> is_drive_name m = false) by (intros m r0 ->; apply (A4 m (r0 ++ [n]) eq_refl)).
  destruct (dir_true c Hl s pre e HV A1 Hde Hdr0) as [_ Re].
  assert (Hex : exists_ s (abs_path (sepc s) (pre ++ [n])) false = Ok true).
  { apply (child_exists c Hl s pre e n x HJ A1 Hde Hop Re); try assumption. apply Forall_app in Ho. destruct Ho as [_ Ho]. inversion Ho; assumption. }
  destruct (rmtree_run c Hl (S fuel) ign _ s _ s' pre n e x HJ Hnames A1 A2 A3 A4 Hex E) as (_ & B & C & _).
  split; [|auto]. intros y (names & Hy). apply (tm_below _ s s' B names x y); [|exact Hy]. apply (tm_gone _ _ _ B e n x A2 D).
Qed.
Print Assumptions C83_rmtree_done_partial.

(** ** A concrete case *)
Example C83_done_case : linux_like posix_cfg /\ session natural_fds posix_cfg c83_state (all_handles fd_init [] c83_ops) /\ null_free c83_state /\ honest_dirs c83_state /\
  honest_links c83_state /\ is_root c83_state = true /\ within_limits c83_state /\ sizes_ok c83_state /\
  at_names c83_state [] = Some 0 /\ entry c83_state 0 (L "d") = Some 2 /\ is_dirobj c83_state 2 = true /\
  (forall m r, [] ++ [L "d"] = m :: r -> is_drive_name m = false) /\ has_bit (o_mode (ob c83_state 0)) PERM_READ = true /\ all_readable c83_state 2 /\
  (forall names y, tree_at c83_state 2 names = Some y -> length names < 12).
Proof.
  pose proof (reachable_Ginv posix_cfg _ posix_cfg_linux (session_reachable _ _ _ _ c83_session)) as HG.
  split; [apply posix_cfg_linux|]. split; [apply c83_session|]. split; [apply c83_good|]. split; [apply c83_good|].
  split. { intros d n o H1 H2. assert (Hall : forall o, is_link c83_state o = true -> match o_body (ob c83_state o) with BFile (Some _) => true | _ => false end = true).
    { clear. intros o. do 12 (destruct o as [|o]; [vm_compute; auto|]). vm_compute. discriminate. }
    specialize (Hall o H2). destruct (o_body (ob c83_state o)) as [|[t|]]; [discriminate|eauto|discriminate]. }
  split; [reflexivity|]. split. { intros k m t H. assert (Hn : forallb (fun e => match m_total (snd e) with None => true | _ => false end) (f_mounts c83_state) = true) by (vm_compute; reflexivity).
    rewrite forallb_forall in Hn. specialize (Hn _ H). cbn [snd] in Hn. intros Q. rewrite Q in Hn. discriminate. }
  split. { intros o. apply Z.leb_le. do 12 (destruct o as [|o]; [vm_compute; reflexivity|]). vm_compute. reflexivity. }
  split; [vm_compute; reflexivity|]. split; [vm_compute; reflexivity|]. split; [vm_compute; reflexivity|]. split; [intros m r [= <- <-]; reflexivity|]. split; [vm_compute; reflexivity|].
  split. { intros y _. revert y. assert (Hall : forall o, (if is_dirobj c83_state o then has_bit (o_mode (ob c83_state o)) PERM_READ else true) = true).
    { intros o. do 12 (destruct o as [|o]; [vm_compute; reflexivity|]). vm_compute. reflexivity. }
    intros y H. specialize (Hall y). rewrite H in Hall. exact Hall. }
  intros names y H. pose proof (depth_bound c83_state 2 HG names y H) as D. assert (N : f_next c83_state = 11) by (vm_compute; reflexivity). rewrite N in D. lia.
Qed.
