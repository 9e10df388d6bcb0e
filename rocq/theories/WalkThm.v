(** * Lookups of the entries of a directory through any path to it (C46, C47). *)
From Verif Require Export WalkSpec TreeThm CwdThm OpsThm6.
From Coq Require Import List Bool ZArith Lia Ascii.
Import ListNotations.

(** ** Lookups do not raise AttributeError when links have texts and directory
    bits are where they belong *)
Section NoAttr.
Variable s : fs.
Hypothesis Hg : good s.
Hypothesis HL : honest_links s.
Hypothesis HD : honest_dirs s.
Notation sp := (sepc s).

Definition ex_na (ex : str -> res bool) : Prop := forall names, Forall (ordinary sp) names -> ex (abs_path sp names) <> Err AttrErr.

Lemma na_text d n o : entry s d n = Some o -> is_link s o = true -> exists t, text_contents s o = Ok t.
Proof. intros K H. destruct (HL d n o K H) as [t E]. exists t. unfold text_contents. rewrite E. reflexivity. Qed.

Lemma na_valid ex : ex_na ex -> forall fuel p, valid_rel ex fuel s p <> Err AttrErr.
Proof.
  intros Hx fuel. induction fuel as [|fuel IH]; intros p; cbn [valid_rel]; destruct (c_win _); try discriminate.
  - destruct (rfind_pre _ p); discriminate.
  - destruct (rfind_pre _ p) as [pre|] eqn:E; [|discriminate].
    destruct (anp_names s pre Hg) as (names & Hn & En). rewrite En. pose proof (Hx names Hn) as K.
    destruct (ex (abs_path sp names)) as [[|]|e']; cbn [rbind]; [apply IH|discriminate|intros E'; injection E' as ->; apply K; reflexivity].
Qed.
Lemma na_path ex p : ex_na ex -> resolve_path_ ex s p <> Err AttrErr.
Proof.
  intros Hx. unfold resolve_path_. destruct (str_eqb p []); [discriminate|].
  pose proof (na_valid ex Hx (length p) p) as K. destruct (valid_rel ex (length p) s p) as [v|e'] eqn:Ev; cbn [rbind].
  2:{ intros E. injection E as ->. apply K; reflexivity. }
  destruct v; cbn [negb]; [|discriminate].
  destruct (is_root_path _ _); [discriminate|]. destruct (str_eqb _ _); [discriminate|].
  destruct (resolve_components max_links s _) as [r|e'] eqn:Er; cbn [rbind]; [discriminate|].
  rewrite (resolve_components_honest s Hg HL _ _ _ Er). discriminate.
Qed.
Lemma na_walk check comps : forall d, (is_link s d = true -> exists t, text_contents s d = Ok t) -> norm_walk (fun _ => Err RecErr) s check d comps <> Err AttrErr.
Proof.
  induction comps as [|n comps IH]; intros d Ht; cbn [norm_walk]; [discriminate|].
  destruct (S_ISLNK (o_mode (ob s d))) eqn:El.
  - destruct (Ht El) as [t ->]. discriminate.
  - cbn [rbind]. destruct (S_ISDIR (o_mode (ob s d))) eqn:Ed; cbn [negb]; [|destruct (c_win _); discriminate].
    rewrite (get_entry_cs s d n (ll_cs _ (gd_lin s Hg))), <- HD. unfold is_dirm. rewrite Ed.
    destruct (entry s d n) as [o|] eqn:Ee; [|discriminate]. destruct (_ && _ && _); [discriminate|]. apply IH. apply (na_text d n o Ee).
Qed.
Lemma na_resolve ex p c : ex_na ex -> resolve_ ex s p c <> Err AttrErr.
Proof.
  intros Hx. unfold resolve_. pose proof (na_path ex p Hx) as K. destruct (resolve_path_ ex s p) as [r|e]; cbn [rbind]; [|congruence].
  unfold get_norm. destruct (str_eqb _ _); [discriminate|]. destruct (str_eqb _ _); [discriminate|]. apply na_walk.
  rewrite (gd_dnl s Hg _ (gd_root s Hg)). discriminate.
Qed.
Lemma na_lresolve ex p : ex_na ex -> lresolve_ ex s p <> Err AttrErr.
Proof.
  intros Hx. unfold lresolve_. destruct (str_eqb p []); [discriminate|]. destruct (str_eqb p [sp]); [discriminate|].
  destruct (splitpath _ _) as [h t]. set (h' := if str_eqb h [] then f_cwd s else h).
  pose proof (na_resolve ex h' true Hx) as K.
  destruct (resolve_ ex s h' true) as [d|e'] eqn:Er; cbn [rbind]; [|congruence].
  destruct (is_dirobj s d) eqn:Ed; cbn [negb]; [|destruct (c_win _); discriminate].
  destruct (has_bit _ _); cbn [negb]; [|discriminate]. destruct (str_eqb t []); [discriminate|].
  rewrite (get_entry_cs s d t (ll_cs _ (gd_lin s Hg))), Ed. destruct (entry s d t); discriminate.
Qed.
Lemma na_sep ex p o f m : ex_na ex -> raise_for_sep_ ex s p o f m <> Err AttrErr.
Proof.
  intros Hx. unfold raise_for_sep_. rewrite (ll_win _ (gd_lin s Hg)), (ll_mac _ (gd_lin s Hg)). cbn [andb orb].
  destruct (ends_with_path_separator _ _); [|discriminate]. destruct (S_ISLNK _).
  - pose proof (na_resolve ex p true Hx) as K. destruct (resolve_ ex s p true) as [l|e'] eqn:Er.
    + destruct (negb (S_ISDIR _)); discriminate.
    + intros E. apply K. destruct e'; try discriminate E; reflexivity.
  - destruct (negb (S_ISDIR _)); discriminate.
Qed.
Lemma na_type ex p fl follow : ex_na ex -> is_of_type_ ex s p fl follow <> Err AttrErr.
Proof.
  intros Hx. unfold is_of_type_, resolve_any.
  assert (Hr : (if follow then resolve_ ex s p true else lresolve_ ex s p) <> Err AttrErr).
  { destruct follow; [apply na_resolve, Hx|apply na_lresolve, Hx]. }
  destruct (if follow then resolve_ ex s p true else lresolve_ ex s p) as [o|e']; cbn [rbind].
  - pose proof (na_sep ex p o true (negb follow) Hx) as K. destruct (raise_for_sep_ ex s p o true (negb follow)) as [u|e']; cbn [rbind]; [discriminate|].
    intros E. apply K. destruct e'; try discriminate E; reflexivity.
  - intros E. apply Hr. destruct e'; try discriminate E; reflexivity.
Qed.
Lemma na_exists ex p cl : ex_na ex -> exists_body ex s p cl <> Err AttrErr.
Proof.
  intros Hx. unfold exists_body.
  assert (H1 : (if cl then is_of_type_ ex s p S_IFLNK false else Ok false) <> Err AttrErr) by (destruct cl; [apply na_type, Hx|discriminate]).
  destruct (if cl then is_of_type_ ex s p S_IFLNK false else Ok false) as [[|]|e1] eqn:E1; cbn [rbind]; [discriminate| |congruence].
  destruct (str_eqb p []); [discriminate|]. destruct (str_eqb p (devnull_name s)); [discriminate|].
  assert (H2 : (if ends_with_path_separator (f_cfg s) p then is_of_type_ ex s (path_without_trailing_separators (f_cfg s) p) S_IFREG true else Ok false) <> Err AttrErr)
    by (destruct (ends_with_path_separator (f_cfg s) p); [apply na_type, Hx|discriminate]).
  destruct (if ends_with_path_separator (f_cfg s) p then is_of_type_ ex s (path_without_trailing_separators (f_cfg s) p) S_IFREG true else Ok false)
    as [[|]|e2] eqn:E2; cbn [rbind]; [discriminate| |intros E; apply H2; destruct e2; try discriminate E; reflexivity].
  pose proof (na_path ex p Hx) as K. destruct (resolve_path_ ex s p) as [rp|e3] eqn:E3; cbn [rbind].
  - destruct (str_eqb rp [sp]); discriminate.
  - intros E. apply K. destruct e3; try discriminate E; reflexivity.
Qed.
Lemma na_exists_n n : ex_na (exists_n n s).
Proof.
  induction n as [|n IH]; intros names Hn; cbn [exists_n]; [discriminate|]. apply na_exists, IH.
Qed.
Lemma na_top : ex_na (exists_top s).
Proof. intros names Hn. apply (na_exists_n _ names Hn). Qed.
End NoAttr.

Lemma type_total s p fl f : Ginv s -> honest_links s -> honest_dirs s -> exists b, is_of_type s p fl f = Ok b.
Proof.
  intros HG HL HD. assert (Hg := Ginv_good s HG). pose proof (na_type s Hg HL HD _ p fl f (na_top s Hg HL HD)) as K.
  pose proof (lookup_ok_type s HG p fl f) as K2. unfold is_of_type in *.
  destruct (is_of_type_ (exists_top s) s p fl f) as [b|e]; [exists b; reflexivity|]. rewrite (K2 e eq_refl) in K. congruence.
Qed.

(** ** Prefixes of a path that leads somewhere lead somewhere *)
Lemma resolves_prefix s : good s -> forall k names r, resolves s k names r -> forall o, at_names s r = Some o ->
  forall a b, names = a ++ b -> exists k' ra x, k' <= k /\ resolves s k' a ra /\ at_names s ra = Some x.
Proof.
  intros Hg k names r H. induction H as [names Hn|k names pre n l rest t r Hm Ht Hr IH]; intros o Ho a b E.
  - subst names. exists 0, a. unfold at_names in *. rewrite tree_at_app in Ho.
    destruct (tree_at s root_oid a) as [x|] eqn:Ea; [|discriminate]. exists x. split; [lia|]. split; [|first [exact Ea|reflexivity]].
    apply res_done. apply (linkfree_prefix s a b Hn).
  - pose proof Hm as (E1 & E2 & E3).
    destruct (Nat.le_gt_cases (length a) (length pre)) as [L|L].
    + (* the link is in b *)
      assert (Hp : exists c, pre = a ++ c).
      { exists (skipn (length a) pre). rewrite <- (firstn_skipn (length a) pre) at 1. f_equal.
        rewrite E1 in E. assert (K := f_equal (firstn (length a)) E). rewrite !firstn_app, firstn_all in K.
        replace (length a - length pre) with 0 in K by lia. rewrite Nat.sub_diag in K. cbn in K. rewrite !app_nil_r in K. exact K. }
      destruct Hp as [cc ->]. rewrite <- app_assoc in E2. unfold at_names in E2. rewrite tree_at_app in E2.
      destruct (tree_at s root_oid a) as [x|] eqn:Ea; [|discriminate]. exists 0, a, x. split; [lia|]. split; [|first [exact Ea|reflexivity]].
      apply res_done. intros p' n' l' r' (F1 & F2 & F3).
      (* two links on one path *)
      subst a.
      assert (Hd : is_dirobj s l' = true).
      { unfold at_names in F2. destruct r' as [|y r'].
        - unfold at_names in F2. rewrite F2 in Ea. injection Ea as <-. destruct cc as [|y cc]; [|apply (tree_at_dirobj s l' y (cc ++ [n]) l); exact E2].
          apply (tree_at_dirobj s l' n [] l). exact E2.
        - change (p' ++ n' :: y :: r') with (p' ++ [n'] ++ y :: r') in Ea. rewrite app_assoc, tree_at_app, F2 in Ea.
          apply (tree_at_dirobj s l' y r' x Ea). }
      rewrite (gd_dnl s Hg l' Hd) in F3. discriminate F3.
    + assert (Hp : exists c, a = pre ++ n :: c /\ rest = c ++ b).
      { exists (skipn (S (length pre)) a). rewrite E1 in E.
        assert (K := f_equal (firstn (length a)) E). rewrite firstn_app, (firstn_app _ a b), firstn_all, Nat.sub_diag in K.
        cbn [firstn] in K. rewrite app_nil_r in K.
        rewrite (firstn_all2 pre) in K by lia. destruct (length a - length pre) as [|m] eqn:Em; [lia|]. cbn [firstn] in K.
        assert (K2 : skipn (S (length pre)) a = firstn m rest).
        { rewrite <- K. rewrite skipn_app. rewrite (skipn_all2 pre) by lia. replace (S (length pre) - length pre) with 1 by lia. reflexivity. }
        rewrite K2. split; [symmetry; exact K|]. rewrite <- K in E. rewrite <- app_assoc in E. apply app_inv_head in E.
        injection E as E. exact E. }
      destruct Hp as (cc & -> & ->). destruct (IH o Ho (link_target (f_cfg s) pre t ++ cc) b) as (k' & ra & x & L1 & R & A).
      { apply app_assoc. }
      exists (S k'), ra, x. split; [lia|]. split; [|exact A]. apply (res_link s k' (pre ++ n :: cc) pre n l cc t ra); [|exact Ht|exact R].
      split; [reflexivity|]. split; assumption.
Qed.

(** The names lead to an object. *)
Definition leads (s : fs) (names : list str) : Prop :=
  is_null s names \/ exists k rr o, k <= 41 /\ resolves s k names rr /\ at_names s rr = Some o.

Lemma resolved_leads s names rr o : good s -> resolved s names rr -> at_names s rr = Some o -> leads s names.
Proof.
  intros Hg [[H _]|(H & k & L & R)] A; [left; exact H|]. right. exists k, rr, o. auto.
Qed.
Lemma leads_prefix s a b : good s -> (exists k rr o, k <= 41 /\ resolves s k (a ++ b) rr /\ at_names s rr = Some o) -> leads s a.
Proof.
  intros Hg (k & rr & o & L & R & A). right. destruct (resolves_prefix s Hg _ _ _ R o A a b eq_refl) as (k' & ra & x & L1 & R1 & A1).
  exists k', ra, x. split; [lia|]. auto.
Qed.

Section Leads.
Variable s : fs.
Hypothesis HG : Ginv s.
Let Hg : good s := Ginv_good s HG.
Notation sp := (sepc s).

Lemma leads_both : forall m names, length names <= m -> Forall (ordinary sp) names -> leads s names ->
  (forall fuel, length (abs_path sp names) <= fuel ->
    (exists k rr o, k <= 41 /\ resolves s k names rr /\ at_names s rr = Some o) ->
    valid_rel (exists_top s) fuel s (abs_path sp names) = Ok true) /\
  exists_top s (abs_path sp names) = Ok true.
Proof.
  induction m as [m IH] using lt_wf_ind. intros names Hm Hn HL.
  assert (HV : forall fuel, length (abs_path sp names) <= fuel ->
    (exists k rr o, k <= 41 /\ resolves s k names rr /\ at_names s rr = Some o) ->
    valid_rel (exists_top s) fuel s (abs_path sp names) = Ok true).
  { intros fuel Hf Hx. destruct fuel as [|fuel]; [unfold abs_path in Hf; cbn in Hf; lia|].
    cbn [valid_rel]. rewrite (ll_win _ (gd_lin s Hg)).
    destruct (rfind_pre [sp; dotc; dotc] (abs_path sp names)) as [pre|] eqn:E; [|reflexivity].
    pose proof (rfind_shorter _ _ _ E) as Lp.
    destruct (rfind_up_abs sp names pre Hn E) as (a & b & -> & Hb & Hpre).
    apply Forall_app in Hn. destruct Hn as [Ha _]. rewrite app_length in Hm.
    assert (Lb : length b <> 0) by (destruct b; [congruence|discriminate]).
    assert (La : leads s a) by (apply (leads_prefix s a b Hg Hx)).
    destruct (IH (length a) ltac:(lia) a (le_n _) Ha La) as [Va Ea].
    assert (Ep : anp s pre = abs_path sp a).
    { destruct Hpre as [->|[-> ->]]; [apply (anp_abs_path s a Hg Ha)|apply (anp_nil s Hg)]. }
    rewrite Ep, Ea. cbn [rbind]. destruct Hpre as [->|[-> ->]].
    - apply Va; [lia|]. destruct Hx as (k & rr & o & L & R & A).
      destruct (resolves_prefix s Hg _ _ _ R o A a b eq_refl) as (k' & ra & x & L1 & R1 & A1). exists k', ra, x. split; [lia|]. auto.
    - apply rfind_none_valid. apply rfind_nil. }
  split; [exact HV|].
  rewrite (exists_top_eq s Hg names Hn). unfold exists_. apply (exists_names s Hg _ names Hn).
  destruct (is_null_dec s names) as [[_ N]|N]; [left; exact N|].
  destruct HL as [H|HL]; [congruence|]. right. pose proof HL as (k & rr & o & L & R & A).
  exists rr, o. split; [|split; [apply (resolves_clean s k names rr Hg (Forall_clean _ _ Hn) R)|exact A]].
  apply (resolve_path_ok s Hg). split; [discriminate|]. split; [apply HV; [lia|exact HL]|].
  exists names, rr. split; [exact Hn|]. split; [apply (anp_abs_path s names Hg Hn)|]. split; [|reflexivity].
  right. split; [exact N|]. exists k. auto.
Qed.
Lemma leads_valid names fuel k rr o : Forall (ordinary sp) names -> length (abs_path sp names) <= fuel ->
  k <= 41 -> resolves s k names rr -> at_names s rr = Some o ->
  valid_rel (exists_top s) fuel s (abs_path sp names) = Ok true.
Proof.
  intros Hn Hf L R A. assert (Hx : exists k rr o, k <= 41 /\ resolves s k names rr /\ at_names s rr = Some o) by (exists k, rr, o; auto).
  apply (proj1 (leads_both (length names) names (le_n _) Hn (or_intror Hx))); assumption.
Qed.
Lemma leads_exists names : Forall (ordinary sp) names -> leads s names -> exists_top s (abs_path sp names) = Ok true.
Proof. intros Hn HL. apply (proj2 (leads_both (length names) names (le_n _) Hn HL)). Qed.

(** ** The path of an entry *)
Lemma joinp_eq p n : ordinary sp n -> joinp s p n = if nonempty p && negb (ends_with_char sp p) then p ++ sp :: n else p ++ n.
Proof.
  intros Hn. unfold joinp. rewrite (joinpaths_two _ (linux_like_posix _ (gd_lin s Hg)) (linux_like_abs _ (gd_lin s Hg))).
  destruct (ordinary_head (f_cfg s) n Hn) as (x & r & -> & Hx). cbn [is_abs].
  replace (Ascii.eqb x sp) with false by (symmetry; apply Ascii.eqb_neq; exact Hx). reflexivity.
Qed.
Lemma ends_char_inv x p : ends_with_char x p = true -> exists q, p = q ++ [x].
Proof. apply ends_with_char_spec. Qed.
(** p/n is P/n where p is P or P followed by a separator *)
Lemma joinp_shape p n : p <> [] -> ordinary sp n -> exists P, joinp s p n = P ++ sp :: n /\ (p = P \/ p = P ++ [sp]).
Proof.
  intros Hp Hn. rewrite (joinp_eq p n Hn). destruct p as [|a p]; [congruence|]. cbn [nonempty andb].
  destruct (ends_with_char sp (a :: p)) eqn:E; cbn [negb].
  - destruct (ends_char_inv _ _ E) as [q Eq]. exists q. rewrite Eq. rewrite <- app_assoc. split; [reflexivity|right; reflexivity].
  - exists (a :: p). split; [reflexivity|left; reflexivity].
Qed.
Lemma joinp_nonempty p n : ordinary sp n -> joinp s p n <> [].
Proof.
  intros Hn. rewrite (joinp_eq p n Hn). destruct Hn as (Hn & _). destruct p; cbn; [exact Hn|]. destruct (negb _); discriminate.
Qed.
Lemma walk_one st n : ordinary sp n -> walk_pos sp st n = n :: st.
Proof.
  intros Hn. pose proof (linux_like_posix _ (gd_lin s Hg)) as Hc.
  rewrite (walk_fold (f_cfg s)). destruct (ordinary_head (f_cfg s) n Hn) as (x & r & E & Hx).
  assert (Ea : is_abs sp n = false) by (rewrite E; cbn; apply Ascii.eqb_neq; exact Hx). rewrite Ea.
  rewrite split_on_word by (apply Hn). cbn [fold_left]. apply (step_ordinary (f_cfg s) st n Hn).
Qed.
Lemma names_of_join p names n : p <> [] -> ordinary sp n -> names_of s p names -> names_of s (joinp s p n) (names ++ [n]).
Proof.
  intros Hp Hn H. unfold names_of in *. rewrite (joinp_eq p n Hn). pose proof (linux_like_posix _ (gd_lin s Hg)) as Hc.
  destruct (ordinary_head (f_cfg s) n Hn) as (x & r & E & Hx).
  assert (Ea : is_abs sp n = false) by (rewrite E; cbn; apply Ascii.eqb_neq; exact Hx).
  rewrite (walk_join _ (linux_like_abs _ (gd_lin s Hg)) _ p n Hp Ea), H, (walk_one _ n Hn), rev_app_distr. reflexivity.
Qed.
End Leads.

(** ** Looking up an entry through a path of its directory *)
Section Child.
Variable s : fs.
Hypothesis HG : Ginv s.
Let Hg : good s := Ginv_good s HG.
Notation sp := (sepc s).

Lemma resolve_seps_tail : forall seps h c, h <> [] -> all_sep sp seps -> resolve s (h ++ seps) c = resolve s h c.
Proof.
  intros seps. induction seps as [|x seps IH] using rev_ind; intros h c Hh Ha; [rewrite app_nil_r; reflexivity|].
  apply Forall_app in Ha. destruct Ha as [Ha Hx]. inversion Hx as [|? ? E _]. subst x.
  rewrite app_assoc. unfold resolve at 1. rewrite (resolve_trailing s Hg); [apply (IH h c Hh Ha)|]. destruct h; [congruence|discriminate].
Qed.
Lemma splitpath_join p n : p <> [] -> ordinary sp n ->
  exists h, splitpath (f_cfg s) (joinp s p n) = (h, n) /\ h <> [] /\ forall c, resolve s h c = resolve s p c.
Proof.
  intros Hp Hn. destruct (joinp_shape s HG p n Hp Hn) as (P & E & HP). pose proof (linux_like_posix _ (gd_lin s Hg)) as Hc.
  pose proof (splitpath_spec _ Hc (joinp s p n)) as Hs. rewrite E in Hs.
  assert (Hns : ~ In sp n) by (apply Hn). rewrite E.
  assert (Hend : forall u t, ~ In sp t -> P ++ sp :: n = u ++ t -> u <> [] -> (exists v, u = v ++ [sp]) -> t = n /\ P ++ [sp] = u).
  { intros u t Ht Eu _ (v & ->). assert (Eq : (split_on sp P ++ [n]) = split_on sp v ++ [t]).
    { rewrite <- (split_on_word sp n Hns), <- (split_on_word sp t Ht), <- !split_on_app_mid. rewrite <- app_assoc in Eu. rewrite Eu. reflexivity. }
    apply app_inj_tail in Eq. destruct Eq as [_ ->]. split; [reflexivity|].
    change (P ++ sp :: t) with (P ++ [sp] ++ t) in Eu. rewrite app_assoc in Eu. apply app_inv_tail in Eu. exact Eu. }
  assert (Hsnoc : forall seps : str, seps <> [] -> all_sep sp seps -> exists w, seps = w ++ [sp] /\ all_sep sp w).
  { intros seps Hne Ha. destruct (exists_last Hne) as (w & x & ->). apply Forall_app in Ha. destruct Ha as [Ha Hx].
    inversion Hx as [|? ? Ex _]. subst x. exists w. auto. }
  inversion Hs as [Hni E1|seps t Hne Hall Hnt Epp E1|h seps t Hh Heh Hne Hall Hnt Epp E1].
  - exfalso. apply Hni. apply in_or_app. right. left. reflexivity.
  - destruct (Hsnoc seps Hne Hall) as (w & Ew & Hw).
    destruct (Hend seps t Hnt Epp Hne (ex_intro _ w Ew)) as [-> Ep]. exists [sp]. split; [reflexivity|]. split; [discriminate|]. intros c.
    assert (Hap : all_sep sp p).
    { rewrite <- Ep in Hall. apply Forall_app in Hall. destruct HP as [->| ->]; [apply Hall|apply Forall_app; exact Hall]. }
    destruct p as [|x p]; [congruence|]. inversion Hap as [|? ? Ex Hap']. subst x. change (sp :: p) with ([sp] ++ p).
    symmetry. apply resolve_seps_tail; [discriminate|exact Hap'].
  - destruct (Hsnoc seps Hne Hall) as (w & Ew & Hw). rewrite app_assoc in Epp.
    assert (Hex : exists v, h ++ seps = v ++ [sp]) by (exists (h ++ w); rewrite Ew, app_assoc; reflexivity).
    destruct (Hend (h ++ seps) t Hnt Epp ltac:(destruct h; [congruence|discriminate]) Hex) as [-> Ep]. exists h. split; [reflexivity|]. split; [exact Hh|]. intros c.
    symmetry. destruct HP as [->| ->].
    + rewrite Ew, app_assoc in Ep. apply app_inj_tail in Ep. destruct Ep as [-> _]. apply resolve_seps_tail; assumption.
    + rewrite Ep. apply resolve_seps_tail; assumption.
Qed.

Lemma joinp_sep_end p n : p <> [] -> ordinary sp n -> ends_with_path_separator (f_cfg s) (joinp s p n) = false.
Proof.
  intros Hp Hn. destruct (ends_with_path_separator (f_cfg s) (joinp s p n)) eqn:E; [|reflexivity]. exfalso.
  destruct (ends_sep_inv s Hg _ E) as (q & Eq & _). destruct (joinp_shape s HG p n Hp Hn) as (P & E1 & _). rewrite E1 in Eq.
  destruct Hn as (Hne & _ & _ & Hns). destruct (exists_last Hne) as (w & x & ->).
  change (P ++ sp :: w ++ [x]) with (P ++ ([sp] ++ w ++ [x])) in Eq. rewrite (app_assoc [sp]), app_assoc in Eq. apply app_inj_tail in Eq. destruct Eq as [_ ->].
  apply Hns. apply in_or_app. right. left. reflexivity.
Qed.

Lemma lresolve_child p n : p <> [] -> ordinary sp n -> lresolve s (joinp s p n) =
  let* d := resolve s p true in
  if negb (is_dirobj s d) then os_err ENOTDIR
  else if negb (has_bit (o_mode (ob s d)) PERM_READ) then os_err EACCES
  else match entry s d n with Some o => Ok o | None => os_err ENOENT end.
Proof.
  intros Hp Hn. unfold lresolve, lresolve_. destruct (joinp_shape s HG p n Hp Hn) as (P & E & _).
  assert (Hin : In sp (joinp s p n)) by (rewrite E; apply in_or_app; right; left; reflexivity).
  assert (E1 : str_eqb (joinp s p n) [] = false) by (apply str_eqb_neq; apply joinp_nonempty; [exact HG|exact Hn]). rewrite E1.
  assert (Hne : n <> []) by apply Hn.
  assert (E2 : str_eqb (joinp s p n) [sp] = false).
  { apply str_eqb_neq. rewrite E. intros K. destruct P as [|x P]; cbn in K; [injection K as K; congruence|].
    injection K as _ K. destruct P; discriminate. }
  rewrite E2. unfold path_without_trailing_separators.
  assert (E3 : strip_seps (f_cfg s) (length (joinp s p n)) (joinp s p n) = joinp s p n).
  { destruct (length (joinp s p n)) as [|m]; [reflexivity|]. cbn [strip_seps]. rewrite (joinp_sep_end p n Hp Hn). reflexivity. }
  rewrite E3. assert (E4 : str_eqb (joinp s p n) dot = false).
  { apply str_eqb_neq. intros K. rewrite K in Hin. destruct Hin as [Hin|[]]. apply (ll_sep _ (gd_lin s Hg)). symmetry. exact Hin. }
  rewrite E4, (original_path_cs s _ (ll_cs _ (gd_lin s Hg))). destruct (splitpath_join p n Hp Hn) as (h & -> & Hh & Hr).
  replace (str_eqb h []) with false by (symmetry; apply str_eqb_neq; exact Hh).
  rewrite <- (Hr true). unfold resolve. destruct (resolve_ (exists_top s) s h true) as [d|e]; cbn [rbind]; [|reflexivity].
  rewrite (ll_win _ (gd_lin s Hg)).
  destruct (is_dirobj s d) eqn:Ed; cbn [negb]; [|reflexivity]. destruct (has_bit _ _); cbn [negb]; [|reflexivity].
  replace (str_eqb n []) with false by (symmetry; apply str_eqb_neq; exact Hne).
  rewrite (get_entry_cs s d n (ll_cs _ (gd_lin s Hg))), Ed. destruct (entry s d n); reflexivity.
Qed.

Lemma raise_child p n o f m : p <> [] -> ordinary sp n -> raise_for_sep s (joinp s p n) o f m = Ok tt.
Proof. intros Hp Hn. unfold raise_for_sep, raise_for_sep_. rewrite (joinp_sep_end p n Hp Hn). reflexivity. Qed.

Lemma islink_child p n d : p <> [] -> ordinary sp n -> resolve s p true = Ok d -> is_dirobj s d = true ->
  has_bit (o_mode (ob s d)) PERM_READ = true ->
  islink s (joinp s p n) = Ok (match entry s d n with Some o => is_link s o | None => false end).
Proof.
  intros Hp Hn Hr Hd Hb. unfold islink, is_of_type, is_of_type_, resolve_any.
  pose proof (lresolve_child p n Hp Hn) as E. unfold lresolve in E. rewrite E, Hr. cbn [rbind]. rewrite Hd, Hb. cbn [negb].
  destruct (entry s d n) as [o|]; cbn [rbind]; [|reflexivity]. pose proof (raise_child p n o true true Hp Hn) as K.
  unfold raise_for_sep in K. cbn [negb]. rewrite K. reflexivity.
Qed.
Lemma isdir_of_resolve p n : p <> [] -> ordinary sp n -> forall o, resolve s (joinp s p n) true = Ok o ->
  isdir s (joinp s p n) true = Ok (is_dirm s o).
Proof.
  intros Hp Hn o Hr. unfold isdir, is_of_type, is_of_type_, resolve_any. unfold resolve in Hr. rewrite Hr. cbn [rbind].
  pose proof (raise_child p n o true false Hp Hn) as K. unfold raise_for_sep in K. cbn [negb]. rewrite K. reflexivity.
Qed.
Lemma isdir_of_error p n e : resolve s (joinp s p n) true = Err (OSErr e) -> isdir s (joinp s p n) true = Ok false.
Proof.
  intros Hr. unfold isdir, is_of_type, is_of_type_, resolve_any. unfold resolve in Hr. rewrite Hr. reflexivity.
Qed.
End Child.

(** ** Paths that arrive at a directory *)
Record arrives (s : fs) (p : str) (names rr : list str) (d : oid) : Prop := {
  ar_p : p <> [];
  ar_names : names_of s p names;
  ar_dir : is_dirobj s d = true;
  ar_res : resolve s p true = Ok d;
  ar_path : resolve_path s p = Ok (abs_path (sepc s) rr);
  ar_at : at_names s rr = Some d;
  ar_null : ~ is_null s names;
  ar_links : exists k, k <= 41 /\ resolves s k names rr;
  ar_search : searchable s root_oid rr;
  ar_may : may_read s true root_oid rr
}.

Section Arrive.
Variable s : fs.
Hypothesis HG : Ginv s.
Let Hg : good s := Ginv_good s HG.
Notation sp := (sepc s).

Lemma arrives_intro p d : resolve s p true = Ok d -> is_dirobj s d = true -> exists names rr, arrives s p names rr d.
Proof.
  intros Hr Hd. pose proof Hr as H. unfold resolve in H. apply (resolve_ok s Hg) in H. destruct H as (rr & Hp & Hc & H).
  destruct H as [[Hn ->]|(Hn & Hat & Hs & Hm)]; [rewrite (not_dirobj_null s HG) in Hd; discriminate|].
  pose proof Hp as Hp'. apply (resolve_path_ok s Hg) in Hp'. destruct Hp' as (Hne & Hv & names & rr' & Ho & Ha & Hres & E).
  apply (abs_path_clean_inj _ (gd_lin s Hg)) in E; [|exact Hc|apply (resolved_clean s Hg names rr' (Forall_clean _ _ Ho) Hres)]. subst rr'.
  exists names, rr. destruct Hres as [[K ->]|(K & Hk)]; [contradiction|].
  constructor; try assumption. apply (anp_names_of s p names Hg Hne Ho Ha).
Qed.

Lemma arrives_ordinary p names rr d : arrives s p names rr d -> Forall (ordinary sp) names /\ anp s p = abs_path sp names.
Proof. intros H. apply (names_of_anp s p names Hg (ar_p _ _ _ _ _ H) (ar_names _ _ _ _ _ H)). Qed.
Lemma arrives_leads p names rr d : arrives s p names rr d -> leads s names.
Proof. intros H. destruct (ar_links _ _ _ _ _ H) as (k & L & R). right. exists k, rr, d. split; [exact L|]. split; [exact R|apply (ar_at _ _ _ _ _ H)]. Qed.

Lemma valid_child p names rr d n : arrives s p names rr d -> ordinary sp n ->
  valid_rel (exists_top s) (length (joinp s p n)) s (joinp s p n) = Ok true.
Proof.
  intros H Hn. destruct (arrives_ordinary _ _ _ _ H) as [Ho Ea]. pose proof (ar_p _ _ _ _ _ H) as Hp.
  pose proof (ar_path _ _ _ _ _ H) as Hpath. unfold resolve_path in Hpath. apply (resolve_path_ok s Hg) in Hpath.
  destruct Hpath as (_ & Hv & _). destruct (joinp_shape s HG p n Hp Hn) as (P & E & HP). rewrite E.
  assert (HrP : rfind_pre [sp; dotc; dotc] p = rfind_pre [sp; dotc; dotc] P).
  { destruct HP as [->| ->]; [reflexivity|apply rfind_pre_app_sep, (ll_sep _ (gd_lin s Hg))]. }
  assert (HvP : forall f, length P <= f -> valid_rel (exists_top s) f s P = Ok true).
  { intros f Hf. destruct p as [|x p]; [congruence|]. cbn [length valid_rel] in Hv. rewrite (ll_win _ (gd_lin s Hg)), HrP in Hv.
    rewrite (valid_fuel (exists_top s) s f (S (length p + length P)) P Hf) by lia. cbn [valid_rel]. rewrite (ll_win _ (gd_lin s Hg)).
    destruct (rfind_pre _ P) as [pre|] eqn:Ep; [|reflexivity].
    destruct (exists_top s (anp s pre)) as [[|]|e]; cbn [rbind] in Hv |- *; try discriminate.
    pose proof (rfind_shorter _ _ _ HrP) as L1. pose proof (rfind_shorter _ _ _ Ep) as L2. cbn in L1.
    rewrite (valid_fuel _ _ _ (length p) pre); [exact Hv|lia|lia]. }
  rewrite app_length. cbn [length]. rewrite Nat.add_succ_r. cbn [valid_rel]. rewrite (ll_win _ (gd_lin s Hg)).
  rewrite (rfind_join sp P n (ll_sep _ (gd_lin s Hg))).
  assert (Hrn : rfind_pre [sp; dotc; dotc] n = None).
  { destruct (rfind_pre [sp; dotc; dotc] n) as [pre|] eqn:En; [|reflexivity]. exfalso. destruct (rfind_pre_spec _ _ _ En) as [t ->].
    destruct Hn as (_ & _ & _ & Hns). apply Hns. apply in_or_app. right. left. reflexivity. }
  rewrite Hrn. destruct (starts_with (L "..") n).
  - assert (EP : exists_top s (anp s P) = Ok true).
    { destruct P as [|x P].
      - rewrite (anp_nil s Hg). apply (leads_exists s HG [] (Forall_nil _)). right. exists 0, [], root_oid.
        split; [lia|]. split; [|reflexivity]. apply res_done. intros pre m l rest (K & _). destruct pre; discriminate.
      - assert (Ep : anp s (x :: P) = anp s p).
        { destruct HP as [->| ->]; [reflexivity|symmetry; apply (anp_trailing s Hg); discriminate]. }
        rewrite Ep, Ea. apply (leads_exists s HG names Ho (arrives_leads _ _ _ _ H)). }
    rewrite EP. cbn [rbind]. apply HvP. lia.
  - destruct (rfind_pre [sp; dotc; dotc] P) as [pre|] eqn:Ep; [|reflexivity].
    pose proof (HvP (S (length P)) ltac:(lia)) as K. cbn [valid_rel] in K. rewrite (ll_win _ (gd_lin s Hg)), Ep in K.
    destruct (exists_top s (anp s pre)) as [[|]|e]; cbn [rbind] in K |- *; try discriminate.
    pose proof (rfind_shorter _ _ _ Ep) as L1. rewrite (valid_fuel _ _ _ (length P) pre); [exact K|lia|lia].
Qed.

Lemma path_child p names rr d n o : arrives s p names rr d -> ordinary sp n -> entry s d n = Some o -> is_link s o = false ->
  ~ is_null s (names ++ [n]) ->
  resolve_path s (joinp s p n) = Ok (abs_path sp (rr ++ [n])) /\ exists k, k <= 41 /\ resolves s k (names ++ [n]) (rr ++ [n]).
Proof.
  intros H Hn He Hl Hnn. destruct (arrives_ordinary _ _ _ _ H) as [Ho Ea]. destruct (ar_links _ _ _ _ _ H) as (k & L & R).
  assert (R' : resolves s k (names ++ [n]) (rr ++ [n])).
  { apply (resolves_snoc_any s k names rr d n R (ar_at _ _ _ _ _ H)). intros o' E'. congruence. }
  split; [|exists k; auto]. unfold resolve_path. apply (resolve_path_ok s Hg). split; [apply (joinp_nonempty s HG _ _ Hn)|].
  split; [apply (valid_child _ _ _ _ _ H Hn)|]. exists (names ++ [n]), (rr ++ [n]).
  destruct (names_of_anp s (joinp s p n) (names ++ [n]) Hg (joinp_nonempty s HG _ _ Hn)
    (names_of_join s HG p names n (ar_p _ _ _ _ _ H) Hn (ar_names _ _ _ _ _ H))) as [O1 A1].
  split; [exact O1|]. split; [exact A1|]. split; [|reflexivity]. right. split; [exact Hnn|]. exists k. auto.
Qed.

Lemma resolve_child p names rr d n o c : arrives s p names rr d -> ordinary sp n -> entry s d n = Some o -> is_link s o = false ->
  ~ is_null s (names ++ [n]) -> ~ is_null s (rr ++ [n]) -> is_dirm s d = true ->
  (is_root s = true \/ c = false \/ has_bit (o_mode (ob s o)) PERM_READ = true) ->
  resolve s (joinp s p n) c = Ok o /\ searchable s root_oid (rr ++ [n]) /\ may_read s c root_oid (rr ++ [n]).
Proof.
  intros H Hn He Hl Hnn Hnr Hdm Hmr. destruct (path_child _ _ _ _ _ _ H Hn He Hl Hnn) as [Hpath _].
  assert (Hat : at_names s (rr ++ [n]) = Some o) by (rewrite (at_names_snoc s rr n d (ar_at _ _ _ _ _ H)); exact He).
  assert (Hse : searchable s root_oid (rr ++ [n])).
  { intros pre m rest x E Hx. destruct rest as [|y rest] using rev_ind.
    - apply app_inj_tail in E. destruct E as [<- <-]. pose proof (ar_at _ _ _ _ _ H) as K. unfold at_names in K. congruence.
    - clear IHrest. rewrite app_comm_cons, app_assoc in E. apply app_inj_tail in E. destruct E as [E _].
      apply (ar_search _ _ _ _ _ H pre m rest x E Hx). }
  assert (Hma : may_read s c root_oid (rr ++ [n])).
  { destruct Hmr as [K|[K|K]]; [left; exact K|right; left; exact K|].
    destruct (ar_may _ _ _ _ _ H) as [K'|[K'|K']]; [left; exact K'|discriminate|]. right. right.
    intros pre rest x E Hne Hx. destruct rest as [|y rest] using rev_ind.
    - rewrite app_nil_r in E. subst pre. unfold at_names in Hat. rewrite Hat in Hx. injection Hx as <-. exact K.
    - clear IHrest. rewrite app_assoc in E. apply app_inj_tail in E. destruct E as [E _]. apply (K' pre rest x E Hne Hx). }
  split; [|split; assumption]. unfold resolve. apply (resolve_ok s Hg). exists (rr ++ [n]). split; [exact Hpath|].
  assert (Hcl : Forall (clean sp) (rr ++ [n])).
  { apply Forall_app. split; [|constructor; [apply ordinary_clean, Hn|constructor]].
    apply Forall_clean. apply (at_names_ordinary s HG rr root_oid d). apply (ar_at _ _ _ _ _ H). }
  split; [exact Hcl|]. right. split; [exact Hnr|]. split; [exact Hat|]. split; assumption.
Qed.
Lemma arrives_child p names rr d n o : arrives s p names rr d -> ordinary sp n -> entry s d n = Some o -> is_dirobj s o = true ->
  ~ is_null s (names ++ [n]) -> ~ is_null s (rr ++ [n]) -> is_dirm s d = true ->
  (is_root s = true \/ has_bit (o_mode (ob s o)) PERM_READ = true) ->
  arrives s (joinp s p n) (names ++ [n]) (rr ++ [n]) o.
Proof.
  intros H Hn He Hd Hnn Hnr Hdm Hmr. assert (Hl : is_link s o = false) by (apply (gd_dnl s Hg o Hd)).
  destruct (path_child _ _ _ _ _ _ H Hn He Hl Hnn) as (Hpath & Hk).
  destruct (resolve_child p names rr d n o true H Hn He Hl Hnn Hnr Hdm) as (R & S1 & M1); [destruct Hmr; auto|].
  constructor; try assumption.
  - apply (joinp_nonempty s HG _ _ Hn).
  - apply (names_of_join s HG); [apply (ar_p _ _ _ _ _ H)|exact Hn|apply (ar_names _ _ _ _ _ H)].
  - rewrite (at_names_snoc s rr n d (ar_at _ _ _ _ _ H)). exact He.
Qed.

Lemma arrives_again p names rr d : arrives s p names rr d -> resolve s (abs_path sp rr) true = Ok d.
Proof.
  intros H. pose proof (ar_path _ _ _ _ _ H) as Hpath. pose proof (ar_res _ _ _ _ _ H) as Hr. unfold resolve, resolve_ in Hr |- *.
  fold (resolve_path s p) in Hr. rewrite Hpath in Hr. cbn [rbind] in Hr.
  assert (Hcl : Forall (ordinary sp) rr) by (apply (at_names_ordinary s HG rr root_oid d), (ar_at _ _ _ _ _ H)).
  assert (E : resolve_path s (abs_path sp rr) = Ok (abs_path sp rr)).
  { apply (linkfree_resolve_path s HG (length rr) rr d (le_n _) (ar_at _ _ _ _ _ H)).
    destruct (ar_links _ _ _ _ _ H) as (k & _ & R). apply (resolves_nolink s k names rr R). }
  fold (resolve_path s (abs_path sp rr)). rewrite E. cbn [rbind]. exact Hr.
Qed.
Lemma listdir_arrives p names rr d : arrives s p names rr d -> listdir s (PStr p) = Ok (map fst (ents s d)).
Proof.
  intros H. unfold listdir, resolve_path_arg. rewrite (ar_path _ _ _ _ _ H). cbn [rbind]. unfold confirmdir.
  rewrite (arrives_again _ _ _ _ H). cbn [rbind]. pose proof (ar_dir _ _ _ _ _ H) as Hd. rewrite (gi_dirbit s HG d Hd). cbn [negb rbind].
  unfold is_dirobj in Hd. unfold ents. destruct (o_body (ob s d)); [reflexivity|discriminate].
Qed.
End Arrive.

(** ** Walks *)

Definition proper_prefix (a b : list str) : Prop := exists n r, b = a ++ n :: r.
Definition in_order (topdown : bool) (bs : list (list str)) : Prop :=
  ForallOrdPairs (fun x y => ~ (if topdown then proper_prefix y x else proper_prefix x y)) bs.

Lemma fop_app {A} (R : A -> A -> Prop) l1 : forall l2, ForallOrdPairs R l1 -> ForallOrdPairs R l2 ->
  (forall x y, In x l1 -> In y l2 -> R x y) -> ForallOrdPairs R (l1 ++ l2).
Proof.
  induction l1 as [|a l1 IH]; intros l2 H1 H2 Hx; [exact H2|]. inversion H1 as [|? ? Ha H1']. subst. cbn. constructor.
  - apply Forall_app. split; [exact Ha|]. apply Forall_forall. intros y Hy. apply Hx; [left; reflexivity|exact Hy].
  - apply IH; auto. intros x y Hx1 Hy. apply Hx; [right; exact Hx1|exact Hy].
Qed.
Lemma nodup_app {A} (l1 l2 : list A) : NoDup l1 -> NoDup l2 -> (forall x, In x l1 -> ~ In x l2) -> NoDup (l1 ++ l2).
Proof.
  induction 1 as [|a l1 Ha H IH]; intros H2 Hx; [exact H2|]. cbn. constructor.
  - rewrite in_app_iff. intros [K|K]; [contradiction|]. apply (Hx a (or_introl eq_refl) K).
  - apply IH; [exact H2|]. intros x K. apply Hx. right. exact K.
Qed.
Lemma fop_map {A B} (R : B -> B -> Prop) (f : A -> B) l : ForallOrdPairs (fun x y => R (f x) (f y)) l -> ForallOrdPairs R (map f l).
Proof.
  induction 1 as [|a l Ha H IH]; cbn; constructor; [|exact IH]. apply Forall_forall. intros y Hy. apply in_map_iff in Hy.
  destruct Hy as (x & <- & Hx). rewrite Forall_forall in Ha. apply Ha, Hx.
Qed.
Lemma fop_impl {A} (R R' : A -> A -> Prop) l : (forall x y, R x y -> R' x y) -> ForallOrdPairs R l -> ForallOrdPairs R' l.
Proof.
  intros HR. induction 1 as [|a l Ha H IH]; constructor; [|exact IH]. apply Forall_forall. intros y Hy. rewrite Forall_forall in Ha. apply HR, Ha, Hy.
Qed.
Lemma fop_nth {A} (R : A -> A -> Prop) l : ForallOrdPairs R l -> forall i j x y, i < j -> nth_error l i = Some x -> nth_error l j = Some y -> R x y.
Proof.
  induction 1 as [|a l Ha H IH]; intros i j x y L Hi Hj; [destruct i; discriminate|].
  destruct j as [|j]; [lia|]. destruct i as [|i].
  - injection Hi as <-. rewrite Forall_forall in Ha. apply Ha. apply (nth_error_In l j Hj).
  - apply (IH i j); [lia|exact Hi|exact Hj].
Qed.
Lemma prefix_cons n a b : proper_prefix (n :: a) (n :: b) <-> proper_prefix a b.
Proof.
  split; intros (m & r & E); exists m, r; [injection E as E; exact E|rewrite E; reflexivity].
Qed.
Lemma in_order_cons td n bs : in_order td bs -> in_order td (map (cons n) bs).
Proof.
  intros H. apply fop_map. revert H. apply fop_impl. intros x y H. destruct td; rewrite prefix_cons; exact H.
Qed.

Section Walk.
Variable s : fs.
Hypothesis HG : Ginv s.
Hypothesis HL : honest_links s.
Hypothesis HD : honest_dirs s.
Hypothesis HN : null_free s.
Let Hg : good s := Ginv_good s HG.
Notation sp := (sepc s).
Variable td : bool.
Variable keep : str -> str -> bool.
Notation edit := (fun (root : str) (ds _ : list str) => filter (keep root) ds).

Lemma path_in_nil p : path_in s p [] = p.
Proof. reflexivity. Qed.
Lemma joinp_step p n : joinp s p n = join_step (f_cfg s) p n.
Proof.
  unfold joinp. rewrite (joinpaths_fold _ (linux_like_posix _ (gd_lin s Hg)) (linux_like_abs _ (gd_lin s Hg))). reflexivity.
Qed.
Lemma path_in_fold p b : path_in s p b = fold_left (join_step (f_cfg s)) b p.
Proof. unfold path_in. rewrite (joinpaths_fold _ (linux_like_posix _ (gd_lin s Hg)) (linux_like_abs _ (gd_lin s Hg))). reflexivity. Qed.
Lemma path_in_cons p n b : path_in s p (n :: b) = path_in s (joinp s p n) b.
Proof. rewrite !path_in_fold, joinp_step. reflexivity. Qed.
Lemma yields_cons p d n o b : entry s d n = Some o -> yields s p d (n :: b) = yields s (joinp s p n) o b.
Proof. intros E. unfold yields. rewrite path_in_cons. unfold names_at. cbn [tree_at]. rewrite E.
  f_equal; apply filter_ext; intros m; cbn [app]; rewrite path_in_cons; reflexivity.
Qed.

Lemma isdirb_ok q : isdir s q true = Ok (isdirb s q).
Proof. unfold isdirb. destruct (type_total s q S_IFDIR true HG HL HD) as [b E]. unfold isdir. rewrite E. reflexivity. Qed.
Lemma classify_ok p l : classify_names s p l =
  Ok (filter (fun n => isdirb s (joinp s p n)) l, filter (fun n => negb (isdirb s (joinp s p n))) l).
Proof.
  induction l as [|n l IH]; [reflexivity|]. cbn [classify_names filter]. rewrite isdirb_ok, IH. cbn [rbind fst snd].
  destruct (isdirb s (joinp s p n)); reflexivity.
Qed.

Lemma entry_ordinary d n o : entry s d n = Some o -> ordinary sp n.
Proof.
  intros E. assert (K : tree_at s d [n] = Some o) by (cbn; rewrite E; reflexivity).
  pose proof (at_names_ordinary s HG [n] d o K) as F. inversion F. assumption.
Qed.

(** which entries count as directories *)
Lemma isdirb_entry p names rr d n o : arrives s p names rr d -> readable_below s d -> no_null_below s names d ->
  entry s d n = Some o -> is_link s o = false -> isdirb s (joinp s p n) = is_dirobj s o.
Proof.
  intros HA HR HNN He Hl. assert (Hn := entry_ordinary d n o He).
  assert (Ht : tree_at s d [n] = Some o) by (cbn; rewrite He; reflexivity).
  assert (Hnn : ~ is_null s (names ++ [n])) by (apply (HNN [n] o Ht)).
  assert (Hnr : ~ is_null s (rr ++ [n])).
  { intros K. pose proof (HN _ K) as E. rewrite (at_names_snoc s rr n d (ar_at _ _ _ _ _ HA)) in E. congruence. }
  assert (Hdm : is_dirm s d = true) by (rewrite HD; apply (ar_dir _ _ _ _ _ HA)).
  destruct (is_dirobj s o) eqn:Ed.
  - destruct (resolve_child s HG p names rr d n o true HA Hn He Hl Hnn Hnr Hdm) as (R & _).
    { right; right. apply (HR [n] o Ht Ed). }
    unfold isdirb. rewrite (isdir_of_resolve s HG p n (ar_p _ _ _ _ _ HA) Hn o R), HD. exact Ed.
  - destruct (resolve_child s HG p names rr d n o false HA Hn He Hl Hnn Hnr Hdm) as (R & _); [auto|].
    destruct (resolve_check s _ o R) as [R'|R'].
    + unfold isdirb. rewrite (isdir_of_resolve s HG p n (ar_p _ _ _ _ _ HA) Hn o R'), HD. exact Ed.
    + unfold isdirb. rewrite (isdir_of_error s p n _ R'). reflexivity.
Qed.

(** the spec of one walk *)
Definition walked (p : str) (d : oid) (r : res (list wevent)) : Prop :=
  exists bs, r = Ok (map (yields s p d) bs) /\
    (forall b, In b bs <-> sub_dir s d b /\ (td = true -> kept_path s keep p b)) /\
    NoDup bs /\ in_order td bs.

Lemma walk_each_ok rec p d : forall l, NoDup l ->
  (forall n, In n l -> exists o, entry s d n = Some o /\ islink s (joinp s p n) = Ok (is_link s o) /\
     (is_link s o = false -> walked (joinp s p n) o (rec (joinp s p n)))) ->
  exists bs, walk_each rec s false p l = Ok (map (yields s p d) bs) /\
    (forall b, In b bs <-> exists n o r, b = n :: r /\ In n l /\ entry s d n = Some o /\ is_link s o = false /\
       sub_dir s o r /\ (td = true -> kept_path s keep (joinp s p n) r)) /\
    NoDup bs /\ in_order td bs.
Proof.
  induction l as [|n l IH]; intros Hnd Hl.
  - exists []. split; [reflexivity|]. split; [|split; constructor]. intros b. split; [intros []|intros (n & o & r & _ & [] & _)].
  - inversion Hnd as [|? ? Hnl Hnd']. subst. destruct (IH Hnd') as (bs & E & Hb & Nb & Ob).
    { intros m Hm. apply Hl. right. exact Hm. }
    destruct (Hl n (or_introl eq_refl)) as (o & He & Hlk & Hw). cbn [walk_each]. rewrite Hlk. cbn [rbind].
    assert (Hcase : exists hs, (let* here := if is_link s o then Ok [] else rec (joinp s p n) in
        let* later := walk_each rec s false p l in Ok (here ++ later)) = Ok (map (yields s p d) (map (cons n) hs ++ bs)) /\
        (forall r, In r hs <-> is_link s o = false /\ sub_dir s o r /\ (td = true -> kept_path s keep (joinp s p n) r)) /\
        NoDup hs /\ in_order td hs).
    { destruct (is_link s o) eqn:El.
      - exists []. rewrite E. split; [reflexivity|]. split; [|split; constructor]. intros r. split; [intros []|intros (K & _); discriminate].
      - destruct (Hw eq_refl) as (hs & Er & Hh & Nh & Oh). exists hs. rewrite Er, E. cbn [rbind]. split.
        + f_equal. rewrite map_app. f_equal. rewrite map_map. apply map_ext. intros b. symmetry. apply yields_cons, He.
        + split; [|split; assumption]. intros r. rewrite Hh. tauto. }
    destruct Hcase as (hs & Eq & Hh & Nh & Oh). exists (map (cons n) hs ++ bs). split; [exact Eq|].
    split; [|split].
    + intros b. rewrite in_app_iff, in_map_iff, Hb. split.
      * intros [(r & <- & Hr)|(m & o' & r & -> & Hm & R)].
        -- apply Hh in Hr. destruct Hr as (K1 & K2 & K3). exists n, o, r. split; [reflexivity|]. split; [left; reflexivity|]. auto.
        -- exists m, o', r. split; [reflexivity|]. split; [right; exact Hm|exact R].
      * intros (m & o' & r & -> & [<-|Hm] & E' & R).
        -- left. exists r. split; [reflexivity|]. rewrite He in E'. injection E' as <-. apply Hh. exact R.
        -- right. exists m, o', r. auto.
    + assert (Ha : NoDup (map (cons n) hs)).
      { clear -Nh. induction Nh as [|a hs Ha N IHn]; cbn; constructor; [|exact IHn]. intros K. apply in_map_iff in K. destruct K as (x & K & Hx).
        injection K as ->. contradiction. }
      apply nodup_app; [exact Ha|exact Nb|]. intros b K1 K2. apply in_map_iff in K1. destruct K1 as (r & <- & _).
      apply Hb in K2. destruct K2 as (m & _ & r' & K & Hm & _). injection K as -> _. contradiction.
    + apply fop_app; [apply in_order_cons, Oh|exact Ob|]. intros x y Hx Hy. apply in_map_iff in Hx. destruct Hx as (r & <- & _).
      apply Hb in Hy. destruct Hy as (m & _ & r' & -> & Hm & _). assert (m <> n) by (intros ->; contradiction).
      destruct td; intros (u & v & K); cbn in K; injection K as K _; congruence.
Qed.

Lemma walk_ok fuel : forall p names rr d tm, arrives s p names rr d -> readable_below s d -> no_null_below s names d ->
  (forall b x, tree_at s d b = Some x -> is_dirobj s x = true -> length b < fuel) ->
  (tm = true \/ islink s p = Ok false) ->
  walked p d (do_walk fuel s td false edit tm p).
Proof.
  induction fuel as [|fuel IH]; intros p names rr d tm HA HR HNN HF Htm.
  { pose proof (HF [] d eq_refl (ar_dir _ _ _ _ _ HA)) as K. cbn in K. lia. }
  assert (Hdm : is_dirm s d = true) by (rewrite HD; apply (ar_dir _ _ _ _ _ HA)).
  cbn [do_walk]. assert (Hskip : (if tm || false then Ok false else islink s p) = Ok false) by (destruct Htm as [->| ->]; [reflexivity|destruct tm; reflexivity]).
  rewrite Hskip. cbn [rbind]. unfold classify. rewrite (listdir_arrives s HG _ _ _ _ HA). cbn [rbind]. rewrite classify_ok.
  set (dirs := filter (fun n => isdirb s (joinp s p n)) (map fst (ents s d))).
  set (files := filter (fun n => negb (isdirb s (joinp s p n))) (map fst (ents s d))).
  assert (Hnd : NoDup (map fst (ents s d))) by (apply (gi_nodup s HG d)).
  set (l := if td then filter (keep p) dirs else dirs).
  assert (Hl : forall n, In n l <-> In n dirs /\ (td = true -> keep p n = true)).
  { intros n. unfold l. destruct td; [rewrite filter_In; tauto|]. intuition discriminate. }
  assert (Nl : NoDup l) by (unfold l, dirs; destruct td; repeat apply NoDup_filter; exact Hnd).
  destruct (walk_each_ok (do_walk fuel s td false edit false) p d l Nl) as (bs & E & Hb & Nb & Ob).
  { intros n Hn. apply Hl in Hn. destruct Hn as [Hn _]. unfold dirs in Hn. apply filter_In in Hn. destruct Hn as [Hn Hi].
    apply names_in_ents in Hn. destruct Hn as [o He]. exists o. split; [exact He|].
    assert (Ho := entry_ordinary d n o He). assert (Ht : tree_at s d [n] = Some o) by (cbn; rewrite He; reflexivity).
    assert (Hlk : islink s (joinp s p n) = Ok (is_link s o)).
    { rewrite (islink_child s HG p n d (ar_p _ _ _ _ _ HA) Ho (ar_res _ _ _ _ _ HA) (ar_dir _ _ _ _ _ HA)); [rewrite He; reflexivity|].
      apply (HR [] d eq_refl (ar_dir _ _ _ _ _ HA)). }
    split; [exact Hlk|]. intros Hnl. rewrite Hnl in Hlk.
    rewrite (isdirb_entry p names rr d n o HA HR HNN He Hnl) in Hi.
    apply (IH (joinp s p n) (names ++ [n]) (rr ++ [n]) o false).
    - apply (arrives_child s HG p names rr d n o HA Ho He Hi); [apply (HNN [n] o Ht)| |exact Hdm|right; apply (HR [n] o Ht Hi)].
      intros K. pose proof (HN _ K) as K'. rewrite (at_names_snoc s rr n d (ar_at _ _ _ _ _ HA)) in K'. congruence.
    - intros b x Hx. apply (HR (n :: b) x). cbn. rewrite He. exact Hx.
    - intros b x Hx. rewrite <- app_assoc. apply (HNN (n :: b) x). cbn. rewrite He. exact Hx.
    - intros b x Hx Hdx. pose proof (HF (n :: b) x) as K. cbn in K. rewrite He in K. specialize (K Hx Hdx). lia.
    - right. exact Hlk. }
  rewrite E. cbn [rbind]. exists (if td then [] :: bs else bs ++ [[]]).
  assert (Hbs : forall b, In b bs <-> b <> [] /\ sub_dir s d b /\ (td = true -> kept_path s keep p b)).
  { intros b. rewrite Hb. split.
    - intros (n & o & r & -> & Hn & He & Hnl & (x & Hx & Hdx) & Hk). split; [discriminate|]. split; [exists x; split; [cbn; rewrite He; exact Hx|exact Hdx]|].
      intros Et a m r' Ea. destruct a as [|y a].
      + injection Ea as <- <-. rewrite path_in_nil. apply (proj1 (Hl n) Hn), Et.
      + injection Ea as <- Ea. rewrite path_in_cons. apply (Hk Et a m r' Ea).
    - intros (Hne & (x & Hx & Hdx) & Hk). destruct b as [|n r]; [congruence|]. cbn in Hx.
      destruct (entry s d n) as [o|] eqn:He; [|discriminate].
      assert (Hdo : is_dirobj s o = true).
      { destruct r as [|y r]; [cbn in Hx; congruence|]. apply (tree_at_dirobj s o y r x Hx). }
      assert (Hnl : is_link s o = false) by (apply (gd_dnl s Hg o Hdo)).
      exists n, o, r. split; [reflexivity|]. split; [|split; [exact He|split; [exact Hnl|split; [exists x; auto|]]]].
      + apply Hl. split.
        * unfold dirs. apply filter_In. split; [apply names_in_ents; exists o; exact He|].
          rewrite (isdirb_entry p names rr d n o HA HR HNN He Hnl). exact Hdo.
        * intros Et. rewrite <- (path_in_nil p). apply (Hk Et [] n r eq_refl).
      + intros Et a m r' Ea. rewrite <- path_in_cons. apply (Hk Et (n :: a) m r'). rewrite Ea. reflexivity. }
  assert (Hnil : sub_dir s d [] /\ (td = true -> kept_path s keep p [])).
  { split; [exists d; split; [reflexivity|apply (ar_dir _ _ _ _ _ HA)]|]. intros _ a n r K. destruct a; discriminate. }
  assert (Hin : forall b, (b = [] \/ In b bs) <-> sub_dir s d b /\ (td = true -> kept_path s keep p b)).
  { intros b. rewrite Hbs. split.
    - intros [->|(_ & K)]; [exact Hnil|exact K].
    - intros K. destruct b as [|n b]; [left; reflexivity|right]. split; [discriminate|exact K]. }
  assert (Hno : ~ In [] bs) by (intros K; apply Hbs in K; destruct K as [K _]; congruence).
  assert (Hy : yields s p d [] = WYield p dirs files) by reflexivity.
  destruct td.
  - split; [cbn [map]; rewrite Hy; reflexivity|]. split; [|split; [constructor; assumption|]].
    + intros b. rewrite <- Hin. cbn [In]. split; (intros [K|K]; [left; congruence|right; exact K]).
    + constructor; [|exact Ob]. apply Forall_forall. intros b Hb1 (n & r & K). destruct b; discriminate.
  - split; [rewrite map_app; cbn [map]; rewrite Hy; reflexivity|]. split; [|split; [apply NoDup_app_snoc; assumption|]].
    + intros b. rewrite <- Hin, in_app_iff. cbn [In]. split; [intros [K|[K|[]]]; [right; exact K|left; congruence]|intros [->|K]; [right; left; reflexivity|left; exact K]].
    + apply fop_app; [exact Ob|repeat constructor|]. intros x y _ [<-|[]] (n & r & K). destruct x; discriminate.
Qed.
End Walk.

(** ** Walks end, also when links are followed *)
Lemma resolves_len s : good s -> forall F, depth_le s root_oid F -> forall k names r, resolves s k names r ->
  forall o, at_names s r = Some o -> forall a b, names = a ++ b -> length b <= S k * F.
Proof.
  intros Hg F HF k names r H. induction H as [names Hn|k names pre n l rest t r Hm Ht Hr IH]; intros o Ho a b E.
  - subst names. pose proof (HF _ _ Ho) as K. rewrite app_length in K. lia.
  - pose proof Hm as (E1 & E2 & E3). destruct (Nat.le_gt_cases (length a) (length pre)) as [Lc|Lc].
    + assert (Hp : length pre + 1 <= F) by (pose proof (HF _ _ E2) as K; rewrite app_length in K; cbn in K; lia).
      pose proof (IH o Ho (link_target (f_cfg s) pre t) rest eq_refl) as K.
      assert (Ll : length names = length pre + S (length rest)) by (rewrite E1, app_length; reflexivity).
      rewrite E, app_length in Ll. cbn. cbn in K. lia.
    + assert (Lb : exists c, rest = c ++ b).
      { exists (firstn (length rest - length b) rest). rewrite <- (firstn_skipn (length rest - length b) rest) at 1. f_equal.
        assert (Ll : length names = length pre + S (length rest)) by (rewrite E1, app_length; reflexivity).
        assert (K : skipn (length a) names = b) by (rewrite E, skipn_app, skipn_all, Nat.sub_diag; reflexivity).
        rewrite E1, skipn_app, (skipn_all2 pre) in K by lia. cbn [app] in K.
        destruct (length a - length pre) as [|m] eqn:Em; [lia|]. cbn [skipn] in K. rewrite <- K. f_equal. rewrite E, app_length in Ll. rewrite K. lia. }
      destruct Lb as (cc & ->). pose proof (IH o Ho (link_target (f_cfg s) pre t ++ cc) b (app_assoc _ _ _)) as K. cbn. cbn in K. lia.
Qed.

Section End_.
Variable s : fs.
Hypothesis HG : Ginv s.
Let Hg : good s := Ginv_good s HG.
Notation sp := (sepc s).
Variables (td follow : bool) (edit : str -> list str -> list str -> list str).
Hypothesis Hedit : forall root ds fs, incl (edit root ds fs) ds.

Definition walk_exn (r : res (list wevent)) : Prop := forall e, r = Err e -> e = AttrErr.

Lemma classify_names_err p l e : classify_names s p l = Err e -> e = AttrErr.
Proof.
  revert e. induction l as [|n l IH]; intros e; cbn [classify_names]; [discriminate|].
  pose proof (lookup_ok_type s HG (joinp s p n) S_IFDIR true) as K. unfold isdir.
  destruct (is_of_type s (joinp s p n) S_IFDIR true) as [b|e'] eqn:E; cbn [rbind]; [|intros E'; injection E' as ->; apply K; reflexivity].
  destruct (classify_names s p l) as [df|e'] eqn:E2; cbn [rbind]; [discriminate|]. intros E'; injection E' as ->. apply IH; reflexivity.
Qed.
Lemma classify_names_in p l ds fs : classify_names s p l = Ok (ds, fs) -> forall n, In n ds -> In n l /\ isdir s (joinp s p n) true = Ok true.
Proof.
  revert ds fs. induction l as [|n l IH]; intros ds fs; cbn [classify_names]; [intros E; injection E as <- <-; intros n []|].
  destruct (isdir s (joinp s p n) true) as [b|e'] eqn:E; cbn [rbind]; [|discriminate].
  destruct (classify_names s p l) as [[ds' fs']|e'] eqn:E2; cbn [rbind fst snd]; [|discriminate]. intros E'.
  pose proof (IH ds' fs' eq_refl) as K. destruct b; injection E' as <- <-; intros m Hm.
  - destruct Hm as [<-|Hm]; [split; [left; reflexivity|exact E]|]. destruct (K m Hm). split; [right|]; assumption.
  - destruct (K m Hm). split; [right|]; assumption.
Qed.
Lemma walk_each_err rec p : forall l, (forall n, In n l -> walk_exn (rec (joinp s p n))) -> walk_exn (walk_each rec s follow p l).
Proof.
  induction l as [|n l IH]; intros Hl e; cbn [walk_each]; [discriminate|].
  assert (Hk : walk_exn (walk_each rec s follow p l)) by (apply IH; intros m Hm; apply Hl; right; exact Hm).
  pose proof (lookup_ok_type s HG (joinp s p n) S_IFLNK false) as K. fold (islink s (joinp s p n)) in K.
  destruct (if follow then Ok false else islink s (joinp s p n)) as [b|e'] eqn:E; cbn [rbind].
  2:{ destruct follow; [discriminate|]. intros E'. injection E' as ->. apply K, E. }
  pose proof (Hl n (or_introl eq_refl)) as Hr.
  destruct b; cbn [rbind].
  - destruct (walk_each rec s follow p l) as [x|e'] eqn:E2; cbn [rbind]; [discriminate|]. intros E'. injection E' as ->. apply Hk; reflexivity.
  - destruct (rec (joinp s p n)) as [y|e'] eqn:E3; cbn [rbind].
    + destruct (walk_each rec s follow p l) as [x|e'] eqn:E2; cbn [rbind]; [discriminate|]. intros E'. injection E' as ->. apply Hk; reflexivity.
    + intros E'. injection E' as ->. apply Hr; reflexivity.
Qed.

Hypothesis HD : honest_dirs s.

Lemma isdir_arrives p : isdir s p true = Ok true -> exists names rr o, arrives s p names rr o.
Proof.
  unfold isdir, is_of_type, is_of_type_, resolve_any. intros H. destruct (resolve_ (exists_top s) s p true) as [o|e] eqn:Er; cbn [rbind] in H.
  2:{ destruct e; discriminate. }
  destruct (raise_for_sep_ (exists_top s) s p o true (negb true)) as [u|e]; cbn [rbind] in H; [|destruct e; discriminate].
  assert (Hm : is_dirm s o = true) by (unfold is_dirm, S_ISDIR; congruence).
  rewrite HD in Hm. destruct (arrives_intro s HG p o Er Hm) as (names & rr & HA). exists names, rr, o. exact HA.
Qed.

Lemma names_of_det p a b : names_of s p a -> names_of s p b -> a = b.
Proof. unfold names_of. intros H1 H2. rewrite H1 in H2. apply (f_equal (@rev str)) in H2. rewrite !rev_involutive in H2. exact H2. Qed.
Lemma names_of_some p : exists names, names_of s p names.
Proof. unfold names_of. eexists. symmetry. apply rev_involutive. Qed.

Lemma walk_ends top names fuel : names_of s top names -> forall b p tm, p <> [] -> names_of s p (names ++ b) ->
  length b <= 42 * f_next s -> 42 * f_next s < length b + fuel ->
  walk_exn (do_walk fuel s td follow edit tm p).
Proof.
  intros Hnt. induction fuel as [|fuel IH]; intros b p tm Hp Hn Hb Hf e; [lia|]. cbn [do_walk].
  destruct (if tm || follow then Ok false else islink s p) as [skip|e'] eqn:Es; cbn [rbind].
  2:{ intros E'. injection E' as ->. destruct (tm || follow); [discriminate|].
      apply (lookup_ok_type s HG p S_IFLNK false e Es). }
  destruct skip; [discriminate|]. unfold classify.
  pose proof (lookup_ok_listdir s HG p) as HL.
  destruct (listdir s (PStr p)) as [l|e'] eqn:El; cbn [rbind].
  2:{ destruct (HL e' eq_refl) as [[en ->]| ->]; [discriminate|]. intros E'. injection E' as <-. reflexivity. }
  pose proof (classify_names_err p l) as HC. pose proof (classify_names_in p l) as HI.
  destruct (classify_names s p l) as [[ds fs]|e'].
  2:{ rewrite (HC e' eq_refl). intros E'. injection E' as <-. reflexivity. }
  assert (HW : walk_exn (walk_each (do_walk fuel s td follow edit false) s follow p (if td then edit p ds fs else ds))).
  { apply walk_each_err. intros n Hin.
    assert (Hin' : In n ds) by (destruct td; [apply (Hedit p ds fs), Hin|exact Hin]).
    destruct (HI ds fs eq_refl n Hin') as [Hl Hi].
    apply listdir_inv in El. destruct El as (_ & d & _ & _ & _ & ->). apply names_in_ents in Hl. destruct Hl as [o He].
    assert (Ho := entry_ordinary s HG d n o He).
    destruct (isdir_arrives _ Hi) as (names' & rr & x & HA).
    pose proof (names_of_join s HG p (names ++ b) n Hp Ho Hn) as Hn'. rewrite <- app_assoc in Hn'.
    pose proof (names_of_det _ _ _ (ar_names _ _ _ _ _ HA) Hn') as ->.
    destruct (ar_links _ _ _ _ _ HA) as (k & Lk & R).
    pose proof (resolves_len s Hg (f_next s) (depth_bound s root_oid HG) k _ _ R x (ar_at _ _ _ _ _ HA) names (b ++ [n]) eq_refl) as Ll.
    assert (Ll' : length (b ++ [n]) <= 42 * f_next s) by (apply (Nat.le_trans _ _ _ Ll); apply Nat.mul_le_mono_r; lia).
    apply (IH (b ++ [n])); [apply (joinp_nonempty s HG _ _ Ho)|exact Hn'|exact Ll'|]. rewrite app_length. cbn [length]. lia. }
  destruct (walk_each _ s follow p _) as [below|e'] eqn:Ew; cbn [rbind]; [destruct td; discriminate|]. intros E'. injection E' as ->. apply HW, eq_refl.
Qed.
End End_.

Lemma walk_total s top td follow edit : Ginv s -> honest_dirs s -> (forall root ds fs, incl (edit root ds fs) ds) ->
  (exists evs, walk s top td follow edit = Ok evs) \/ walk s top td follow edit = Err AttrErr.
Proof.
  intros HG HD He. assert (Hw : walk_exn (walk s top td follow edit)).
  { unfold walk. destruct top as [|x top].
    - unfold walk_fuel. change (43 * S (f_next s)) with (S (f_next s) + 42 * S (f_next s)). cbn [Nat.add do_walk orb rbind].
      unfold classify, listdir, resolve_path_arg, resolve_path, resolve_path_. cbn. intros e K. discriminate K.
    - destruct (names_of_some s (x :: top)) as [names Hn].
      apply (walk_ends s HG td follow edit He HD (x :: top) names (walk_fuel s) Hn [] (x :: top) true); [discriminate|rewrite app_nil_r; exact Hn|cbn; lia|].
      unfold walk_fuel. cbn [length]. lia. }
  destruct (walk s top td follow edit) as [evs|e]; [left; exists evs; reflexivity|right]. rewrite (Hw e eq_refl). reflexivity.
Qed.

(** ** scandir *)
Section Scan.
Variable s : fs.
Hypothesis HG : Ginv s.
Hypothesis HL : honest_links s.
Hypothesis HD : honest_dirs s.
Let Hg : good s := Ginv_good s HG.
Notation sp := (sepc s).

Lemma arrives_abs p names rr d : arrives s p names rr d -> arrives s (abs_path sp names) names rr d.
Proof.
  intros H. destruct (arrives_ordinary s HG _ _ _ _ H) as [Ho Ea]. pose proof H as HA. destruct HA.
  destruct ar_links0 as (k & Lk & R).
  assert (Hpath : resolve_path s (abs_path sp names) = Ok (abs_path sp rr)).
  { unfold resolve_path. apply (resolve_path_ok s Hg). split; [discriminate|].
    split; [apply (leads_valid s HG names _ k rr d Ho (le_n _) Lk R ar_at0)|].
    exists names, rr. split; [exact Ho|]. split; [apply (anp_abs_path s names Hg Ho)|]. split; [|reflexivity]. right. split; [exact ar_null0|]. exists k. auto. }
  constructor; try assumption; try (exists k; auto).
  - discriminate.
  - apply (anp_names_of s _ names Hg); [discriminate|exact Ho|apply (anp_abs_path s names Hg Ho)].
  - unfold resolve, resolve_ in ar_res0 |- *. fold (resolve_path s p) in ar_res0. fold (resolve_path s (abs_path sp names)).
    rewrite ar_path0 in ar_res0. rewrite Hpath. exact ar_res0.
Qed.

Lemma resolve_path_same p q names rr d n : arrives s p names rr d -> arrives s q names rr d -> ordinary sp n ->
  resolve_path s (joinp s p n) = resolve_path s (joinp s q n).
Proof.
  intros Hp Hq Hn. unfold resolve_path, resolve_path_.
  replace (str_eqb (joinp s p n) []) with false by (symmetry; apply str_eqb_neq, (joinp_nonempty s HG _ _ Hn)).
  replace (str_eqb (joinp s q n) []) with false by (symmetry; apply str_eqb_neq, (joinp_nonempty s HG _ _ Hn)).
  rewrite (valid_child s HG _ _ _ _ _ Hp Hn), (valid_child s HG _ _ _ _ _ Hq Hn). cbn [rbind negb].
  rewrite !(original_path_cs s _ (ll_cs _ (gd_lin s Hg))).
  assert (Ha : forall r, arrives s r names rr d -> anp s (joinp s r n) = abs_path sp (names ++ [n])).
  { intros r Hr. apply (names_of_anp s (joinp s r n) (names ++ [n]) Hg (joinp_nonempty s HG _ _ Hn)).
    apply (names_of_join s HG r names n (ar_p _ _ _ _ _ Hr) Hn (ar_names _ _ _ _ _ Hr)). }
  rewrite (Ha p Hp), (Ha q Hq). reflexivity.
Qed.
Lemma resolve_same p q names rr d n c : arrives s p names rr d -> arrives s q names rr d -> ordinary sp n ->
  resolve s (joinp s p n) c = resolve s (joinp s q n) c.
Proof.
  intros Hp Hq Hn. pose proof (resolve_path_same p q names rr d n Hp Hq Hn) as E. unfold resolve, resolve_.
  fold (resolve_path s (joinp s p n)). fold (resolve_path s (joinp s q n)). rewrite E. reflexivity.
Qed.
Lemma lresolve_same p q names rr d n : arrives s p names rr d -> arrives s q names rr d -> ordinary sp n ->
  lresolve s (joinp s p n) = lresolve s (joinp s q n).
Proof.
  intros Hp Hq Hn. rewrite (lresolve_child s HG p n (ar_p _ _ _ _ _ Hp) Hn), (lresolve_child s HG q n (ar_p _ _ _ _ _ Hq) Hn).
  rewrite (ar_res _ _ _ _ _ Hp), (ar_res _ _ _ _ _ Hq). reflexivity.
Qed.
Lemma type_same p q names rr d n fl f : arrives s p names rr d -> arrives s q names rr d -> ordinary sp n ->
  is_of_type s (joinp s p n) fl f = is_of_type s (joinp s q n) fl f.
Proof.
  intros Hp Hq Hn. unfold is_of_type, is_of_type_, resolve_any.
  pose proof (resolve_same p q names rr d n true Hp Hq Hn) as E1. pose proof (lresolve_same p q names rr d n Hp Hq Hn) as E2.
  unfold resolve in E1. unfold lresolve in E2.
  assert (E : (if f then resolve_ (exists_top s) s (joinp s p n) true else lresolve_ (exists_top s) s (joinp s p n)) =
              (if f then resolve_ (exists_top s) s (joinp s q n) true else lresolve_ (exists_top s) s (joinp s q n))) by (destruct f; assumption).
  rewrite E. destruct (if f then resolve_ (exists_top s) s (joinp s q n) true else lresolve_ (exists_top s) s (joinp s q n)) as [o|e]; cbn [rbind]; [|reflexivity].
  pose proof (raise_child s HG p n o true (negb f) (ar_p _ _ _ _ _ Hp) Hn) as K1. pose proof (raise_child s HG q n o true (negb f) (ar_p _ _ _ _ _ Hq) Hn) as K2.
  unfold raise_for_sep in K1, K2. rewrite K1, K2. reflexivity.
Qed.

Lemma islinkb_ok q : islink s q = Ok (islinkb s q).
Proof. unfold islinkb. destruct (type_total s q S_IFLNK false HG HL HD) as [b E]. unfold islink. rewrite E. reflexivity. Qed.

Definition entry_of (p names_path : str) (n : str) : dirent :=
  mkent n (joinp s p n) (joinp s names_path n) (isdirb s (joinp s names_path n)) (islinkb s (joinp s names_path n)).
Lemma mapm_ok {A B} (f : A -> res B) g l : (forall x, f x = Ok (g x)) -> mapm f l = Ok (map g l).
Proof. intros H. induction l as [|x l IH]; [reflexivity|]. cbn. rewrite H. cbn. rewrite IH. reflexivity. Qed.

Lemma scandir_arrives p names rr d : arrives s p names rr d ->
  scandir s (PStr p) = Ok (map (entry_of p (abs_path sp names)) (map fst (ents s d))).
Proof.
  intros H. destruct (arrives_ordinary s HG _ _ _ _ H) as [Ho Ea]. pose proof (arrives_abs _ _ _ _ H) as H'.
  unfold scandir. cbn [rbind fst snd]. rewrite Ea. unfold confirmdir. rewrite (ar_res _ _ _ _ _ H'). cbn [rbind].
  pose proof (ar_dir _ _ _ _ _ H) as Hd. rewrite (gi_dirbit s HG d Hd). cbn [negb rbind]. unfold is_dirobj in Hd. unfold ents.
  destruct (o_body (ob s d)) as [es|]; [|discriminate]. apply mapm_ok. intros n. unfold scan_entry.
  rewrite (isdirb_ok s HG HL HD), islinkb_ok. reflexivity.
Qed.

Lemma scan_entry_spec p names rr d n : arrives s p names rr d -> ordinary sp n ->
  let e := entry_of p (abs_path sp names) n in
  de_path e = joinp s p n /\ isdir s (joinp s p n) true = Ok (de_isdir e) /\ islink s (joinp s p n) = Ok (de_islink e) /\
  resolve s (de_abspath e) true = resolve s (joinp s p n) true /\ lresolve s (de_abspath e) = lresolve s (joinp s p n).
Proof.
  intros H Hn. pose proof (arrives_abs _ _ _ _ H) as H'. cbn [entry_of de_path de_isdir de_islink de_abspath].
  split; [reflexivity|]. split; [|split; [|split]].
  - unfold isdir. rewrite (type_same _ _ _ _ _ n S_IFDIR true H H' Hn). apply (isdirb_ok s HG HL HD).
  - unfold islink. rewrite (type_same _ _ _ _ _ n S_IFLNK false H H' Hn). apply islinkb_ok.
  - apply (resolve_same _ _ _ _ _ n true H' H Hn).
  - apply (lresolve_same _ _ _ _ _ n H' H Hn).
Qed.
End Scan.
