(** * Case-insensitive lookup: proofs (C52). *)
From Verif Require Export CaseSpec LookupProofs.

(** ** lower case *)
Lemma lower_slash x : Ascii.eqb (lower_char x) slash = Ascii.eqb x slash.
Proof. destruct x as [[] [] [] [] [] [] [] []]; vm_compute; reflexivity. Qed.
Lemma lower_dot x : Ascii.eqb (lower_char x) dotc = Ascii.eqb x dotc.
Proof. destruct x as [[] [] [] [] [] [] [] []]; vm_compute; reflexivity. Qed.
Lemma lower_char_idem x : lower_char (lower_char x) = lower_char x.
Proof. destruct x as [[] [] [] [] [] [] [] []]; vm_compute; reflexivity. Qed.
Lemma lower_idem a : lower (lower a) = lower a.
Proof. induction a as [|x a IH]; [reflexivity|]. cbn. rewrite lower_char_idem. f_equal. exact IH. Qed.
Lemma lower_app a b : lower (a ++ b) = lower a ++ lower b.
Proof. apply map_app. Qed.
Lemma lower_nil a : str_eqb (lower a) [] = str_eqb a [].
Proof. destruct a; reflexivity. Qed.
Lemma lower_eq_slash a : str_eqb (lower a) [slash] = str_eqb a [slash].
Proof. destruct a as [|x [|y a]]; cbn; [reflexivity|rewrite lower_slash; reflexivity|rewrite !andb_false_r; reflexivity]. Qed.
Lemma lower_eq_dot a : str_eqb (lower a) dot = str_eqb a dot.
Proof. destruct a as [|x [|y a]]; cbn; [reflexivity|rewrite lower_dot; reflexivity|rewrite !andb_false_r; reflexivity]. Qed.
Lemma lower_eq_dotdot a : str_eqb (lower a) dotdot = str_eqb a dotdot.
Proof.
  destruct a as [|x [|y [|z a]]]; cbn; try reflexivity; rewrite ?lower_dot, ?andb_false_r; reflexivity.
Qed.
Lemma lower_in_slash a : In slash (lower a) <-> In slash a.
Proof.
  induction a as [|x a IH]; [reflexivity|]. cbn [lower map In]. fold (lower a). rewrite IH.
  pose proof (lower_slash x) as K. split; (intros [E|E]; [left|right; exact E]).
  - apply Ascii.eqb_eq. rewrite <- K. apply Ascii.eqb_eq, E.
  - apply Ascii.eqb_eq. rewrite K. apply Ascii.eqb_eq, E.
Qed.
Lemma lower_dots a : starts_with (L "..") (lower a) = starts_with (L "..") a.
Proof.
  destruct a as [|x [|y a]]; cbn; try reflexivity; rewrite ?(Ascii.eqb_sym "."%char); change "."%char with dotc; rewrite ?lower_dot; reflexivity.
Qed.
Lemma lower_empty w : lower w = [] <-> w = [].
Proof. destruct w; split; intros E; try reflexivity; discriminate E. Qed.
Lemma lower_dot_iff w : lower w = dot <-> w = dot.
Proof. rewrite <- !str_eqb_eq, lower_eq_dot. reflexivity. Qed.
Lemma lower_dotdot_iff w : lower w = dotdot <-> w = dotdot.
Proof. rewrite <- !str_eqb_eq, lower_eq_dotdot. reflexivity. Qed.
Lemma clean_lower w : clean slash (lower w) <-> clean slash w.
Proof. unfold clean. rewrite lower_in_slash, lower_empty. reflexivity. Qed.
Lemma ordinary_lower w : ordinary slash (lower w) <-> ordinary slash w.
Proof.
  unfold ordinary. rewrite lower_in_slash, lower_empty.
  change (L ".") with dot. change (L "..") with dotdot. rewrite lower_dot_iff, lower_dotdot_iff. reflexivity.
Qed.
Lemma cleans_lower l : Forall (clean slash) (map lower l) <-> Forall (clean slash) l.
Proof. rewrite Forall_map. split; apply Forall_impl; intros w; apply clean_lower. Qed.
Lemma plain_lower l : plain slash (map lower l) <-> plain slash l.
Proof.
  unfold plain. rewrite !Forall_map. split; intros [A B]; (split; [revert A|revert B]; apply Forall_impl; intros w);
    first [apply ordinary_lower|rewrite lower_dots; auto].
Qed.

Lemma lower_split p : split_on slash (lower p) = map lower (split_on slash p).
Proof.
  induction p as [|x p IH]; [reflexivity|]. cbn [lower map split_on]. fold (lower p). rewrite lower_slash, IH.
  destruct (Ascii.eqb x slash); [reflexivity|]. destruct (split_on slash p); reflexivity.
Qed.
Lemma lower_join l : lower (join_with [slash] l) = join_with [slash] (map lower l).
Proof.
  induction l as [|w l IH]; [reflexivity|]. destruct l as [|v l]; [reflexivity|].
  change (lower (w ++ [slash] ++ join_with [slash] (v :: l)) = lower w ++ [slash] ++ join_with [slash] (map lower (v :: l))).
  rewrite !lower_app, IH. reflexivity.
Qed.
Lemma lower_abs_path l : lower (abs_path slash l) = abs_path slash (map lower l).
Proof. unfold abs_path. cbn [lower map]. fold (lower (join_with [slash] l)). rewrite lower_join. reflexivity. Qed.
Lemma lower_is_abs p : is_abs slash (lower p) = is_abs slash p.
Proof. destruct p as [|x p]; [reflexivity|]. apply lower_slash. Qed.

(** ** path functions of the two configurations *)
Section Cfg.
Variable c : cfg.
Hypothesis Hc : ci_like c.
Lemma ci_posix : posix_like c.
Proof. constructor; [apply (ci_win _ Hc)|apply (ci_alt _ Hc)|rewrite (ci_sep _ Hc); discriminate]. Qed.
Lemma ci_abs : posix_abs c.
Proof. constructor; [apply ci_posix|right; apply (ci_sep _ Hc)]. Qed.
Let Hp := ci_posix.
Let Hpp : posix_like posix_cfg := posix_cfg_like.

Lemma collapse_lower b l : collapse b (map lower l) = map lower (collapse b l).
Proof.
  unfold collapse. rewrite map_rev. f_equal.
  change (@nil str) with (map lower []) at 1. generalize (@nil str). induction l as [|w l IH]; intros acc; [reflexivity|].
  cbn [map fold_left]. rewrite <- IH. f_equal. unfold collapse_step. rewrite lower_nil, lower_eq_dot, lower_eq_dotdot.
  destruct (str_eqb w [] || str_eqb w dot); [reflexivity|]. destruct (str_eqb w dotdot); [|reflexivity].
  destruct acc as [|top rest]; cbn [map]; [destruct b; reflexivity|]. rewrite lower_eq_dotdot.
  destruct (str_eqb top dotdot); cbn [negb]; [destruct b; reflexivity|reflexivity].
Qed.

Lemma normpath_lower p : normpath posix_cfg (lower p) = lower (normpath c p).
Proof.
  unfold normpath, normcase, normalize_path_sep. rewrite (ci_alt _ Hc). cbn [c_alt posix_cfg].
  rewrite (splitdrive_posix c Hp), (splitdrive_posix posix_cfg Hpp). unfold sep. rewrite (ci_sep _ Hc). cbn [c_sep posix_cfg].
  assert (E : starts_with [slash] (lower p) = starts_with [slash] p).
  { destruct p as [|x p]; [reflexivity|]. cbn. rewrite (Ascii.eqb_sym "/"%char), (Ascii.eqb_sym _ x). change "/"%char with slash.
    rewrite lower_slash. reflexivity. }
  rewrite E, lower_split, collapse_lower, <- lower_join. cbn [app].
  destruct (starts_with [slash] p); cbv iota; [reflexivity|]. destruct (join_with [slash] _); reflexivity.
Qed.

Lemma path_components_lower p : path_components posix_cfg (lower p) = map lower (path_components c p).
Proof.
  unfold path_components. rewrite (splitdrive_posix c Hp), (splitdrive_posix posix_cfg Hpp). unfold sep. rewrite (ci_sep _ Hc). cbn [c_sep posix_cfg].
  rewrite lower_nil, lower_eq_slash, lower_split. destruct (str_eqb p [] || str_eqb p [slash]); [reflexivity|].
  destruct (split_on slash p) as [|[|x w] [|[|y v] l]]; reflexivity.
Qed.

Lemma path_components_ci names : Forall (clean slash) names -> path_components c (abs_path slash names) = names.
Proof.
  intros H. rewrite <- (path_components_clean posix_cfg posix_cfg_linux names H) at 2.
  unfold path_components. rewrite (splitdrive_posix c Hp), (splitdrive_posix posix_cfg Hpp). unfold sep. rewrite (ci_sep _ Hc). reflexivity.
Qed.

Lemma components_to_path_ci names : Forall (clean slash) names -> components_to_path c names = abs_path slash names.
Proof.
  intros H. unfold components_to_path, sep. rewrite (starts_with_root_abs c Hp) by apply ci_abs. rewrite (ci_sep _ Hc).
  destruct names as [|n names]; [reflexivity|].
  inversion H as [|? ? [Hn1 Hn2] Hr]; subst. pose proof (is_abs_join posix_cfg n names Hn1 Hn2) as K. cbn [c_sep posix_cfg] in K. rewrite K. reflexivity.
Qed.

Lemma is_root_path_ci p : is_root_path c p = str_eqb p [slash].
Proof.
  unfold is_root_path, root_name, sep. rewrite (no_drive_letter c Hp), (ci_sep _ Hc), (ci_cs _ Hc), andb_false_r, orb_false_r. cbn [negb andb].
  change (lower [slash]) with [slash]. rewrite lower_eq_slash. apply orb_diag.
Qed.
End Cfg.

(** ** directories *)
Lemma folded_ents s d : ents (folded s) d = map (fun e => (lower (fst e), snd e)) (ents s d).
Proof.
  unfold ents, ob. cbn [f_heap folded o_body fold_obj]. destruct (o_body (f_heap s d)) as [es|[t|]]; cbn [fold_body]; try reflexivity.
  destruct (S_ISLNK _); reflexivity.
Qed.
Lemma folded_dirobj s d : is_dirobj (folded s) d = is_dirobj s d.
Proof.
  unfold is_dirobj, ob. cbn [f_heap folded o_body fold_obj]. destruct (o_body (f_heap s d)) as [es|[t|]]; cbn [fold_body]; try reflexivity.
  destruct (S_ISLNK _); reflexivity.
Qed.
Lemma folded_mode s o : o_mode (ob (folded s) o) = o_mode (ob s o). Proof. reflexivity. Qed.

Lemma assoc_lower n es : assoc (lower n) (map (fun e : str * oid => (lower (fst e), snd e)) es) = option_map snd (find_lower n es).
Proof.
  induction es as [|[k o] es IH]; [reflexivity|]. cbn [map assoc find_lower fst snd].
  rewrite str_eqb_sym. destruct (str_eqb (lower k) (lower n)); [reflexivity|exact IH].
Qed.
Lemma find_lower_some n es k o : find_lower n es = Some (k, o) -> lower k = lower n /\ In (k, o) es.
Proof.
  induction es as [|[k' o'] es IH]; [discriminate|]. cbn [find_lower].
  destruct (str_eqb_spec (lower k') (lower n)) as [E|E].
  - intros H; injection H as -> ->. split; [exact E|left; reflexivity].
  - intros H. destruct (IH H) as [A B]. split; [exact A|right; exact B].
Qed.
Lemma find_lower_exact n es o : NoDup (map (fun e : str * oid => lower (fst e)) es) -> assoc n es = Some o -> find_lower n es = Some (n, o).
Proof.
  induction es as [|[k x] es IH]; [discriminate|]. cbn [map assoc find_lower fst]. intros Hn. inversion Hn as [|? ? H1 H2]; subst.
  destruct (str_eqb_spec n k) as [->|E].
  - intros H; injection H as ->. rewrite str_eqb_refl. reflexivity.
  - intros H. destruct (str_eqb_spec (lower k) (lower n)) as [E2|E2]; [|apply IH; assumption].
    exfalso. apply H1. rewrite E2. apply in_map_iff. exists (n, o). split; [reflexivity|]. apply assoc_In, H.
Qed.

Section St.
Variable s : fs.
Hypothesis Hc : ci_like (f_cfg s).
Hypothesis H1 : one_spelling s.
Hypothesis Hcwd : is_abs slash (f_cwd s) = true.
Notation f := (folded s).

Lemma content_lower d n : directory_content f d (lower n) =
  match directory_content s d n with Some (k, o) => Some (lower n, o) | None => None end.
Proof.
  rewrite (directory_content_cs f d (lower n) eq_refl). unfold entry. rewrite folded_ents, assoc_lower.
  unfold directory_content. rewrite (ci_cs _ Hc). cbn [negb]. unfold ents. pose proof (H1 d) as K. unfold ents in K.
  destruct (o_body (ob s d)) as [es|]; [|reflexivity].
  destruct (assoc n es) as [o|] eqn:Ea; [rewrite (find_lower_exact n es o K Ea); reflexivity|].
  destruct (find_lower n es) as [[k o]|]; reflexivity.
Qed.
Lemma content_name d n k o : directory_content s d n = Some (k, o) -> lower k = lower n /\ entry s d k = Some o.
Proof.
  unfold directory_content, entry. pose proof (H1 d) as K. unfold ents in *. destruct (o_body (ob s d)) as [es|]; [|discriminate].
  destruct (assoc n es) as [x|] eqn:E; [intros H; injection H as <- <-; auto|].
  destruct (negb (c_cs (f_cfg s))); [|discriminate]. intros H. apply find_lower_some in H. destruct H as [A B]. split; [exact A|].
  clear - B K. induction es as [|[k' x] es IH]; [destruct B|]. cbn [assoc]. cbn [map fst] in K. inversion K as [|? ? K1 K2]; subst.
  destruct B as [B|B]; [injection B as -> ->; rewrite str_eqb_refl; reflexivity|].
  destruct (str_eqb_spec k k') as [->|]; [|apply IH; assumption]. exfalso. apply K1. apply in_map_iff. exists (k', o). auto.
Qed.

Lemma get_entry_lower d n : get_entry f d (lower n) = get_entry s d n.
Proof.
  rewrite (get_entry_cs f d (lower n) eq_refl), folded_dirobj. unfold entry. rewrite folded_ents, assoc_lower.
  unfold get_entry, normalized_entryname, is_dirobj, ents. rewrite (ci_cs _ Hc). cbn [negb].
  pose proof (H1 d) as K. unfold ents in K. destruct (o_body (ob s d)) as [es|]; [|reflexivity].
  destruct (find_lower n es) as [[k o]|] eqn:E; cbn [option_map snd].
  - assert (Ek : assoc k es = Some o); [|rewrite Ek; reflexivity].
    destruct (find_lower_some _ _ _ _ E) as [A B]. clear - B K. induction es as [|[k' x] es IH]; [destruct B|].
    cbn [assoc]. cbn [map fst] in K. inversion K as [|? ? K1 K2]; subst.
    destruct B as [B|B]; [injection B as -> ->; rewrite str_eqb_refl; reflexivity|].
    destruct (str_eqb_spec k k') as [->|]; [|apply IH; assumption]. exfalso. apply K1. apply in_map_iff. exists (k', o). auto.
  - destruct (assoc n es) as [o|] eqn:Ea; [|reflexivity]. rewrite (find_lower_exact n es o K Ea) in E. discriminate.
Qed.

Definition wlower (w : wres) : wres :=
  match w with WDone r => WDone (map lower r) | WLink r l rest => WLink (map lower r) l (map lower rest) end.
Lemma walk_lower comps : forall d acc, walk_comps f d (map lower acc) (map lower comps) = wlower (walk_comps s d acc comps).
Proof.
  induction comps as [|n comps IH]; intros d acc; [reflexivity|]. cbn [map walk_comps]. rewrite content_lower.
  assert (E : map lower acc ++ [lower n] = map lower (acc ++ [n])) by (rewrite map_app; reflexivity). rewrite E.
  destruct (directory_content s d n) as [[k o]|].
  - rewrite folded_mode. destruct (S_ISLNK (o_mode (ob s o))); [reflexivity|apply IH].
  - cbn [wlower]. rewrite (map_app lower (acc ++ [n])). reflexivity.
Qed.
Lemma walk_link_is comps : forall d acc r l rest, walk_comps s d acc comps = WLink r l rest -> is_link s l = true.
Proof.
  induction comps as [|n comps IH]; intros d acc r l rest; [discriminate|]. cbn [walk_comps].
  destruct (directory_content s d n) as [[k o]|]; [|discriminate]. destruct (S_ISLNK (o_mode (ob s o))) eqn:E; [|apply IH].
  intros H; injection H as _ <- _. exact E.
Qed.

Definition rlower (r : res str) : res str := match r with Ok x => Ok (lower x) | Err e => Err e end.
Lemma follow_lower r l : is_link s l = true -> follow_link f (map lower r) l = rlower (follow_link s r l).
Proof.
  intros Hl. unfold follow_link, text_contents. unfold ob at 1. cbn [f_heap folded o_body fold_obj]. fold (ob s l).
  unfold is_link in Hl. destruct (o_body (ob s l)) as [es|[t|]]; cbn [fold_body]; try reflexivity. rewrite Hl. cbn [rbind rlower].
  unfold strip_unc_prefix. rewrite (ci_win _ Hc). change (f_cfg f) with posix_cfg. cbn [c_win posix_cfg andb].
  rewrite (starts_with_root_abs posix_cfg posix_cfg_like) by apply posix_cfg_abs.
  rewrite (starts_with_root_abs _ (ci_posix _ Hc)) by (apply ci_abs, Hc). rewrite (ci_sep _ Hc). cbn [c_sep posix_cfg].
  rewrite lower_is_abs, <- (normpath_lower _ Hc). do 2 f_equal. destruct (is_abs slash t); cbn [negb]; [reflexivity|].
  rewrite lower_join, map_app. cbn [map]. f_equal. f_equal.
  clear. induction r as [|a [|b r] IH]; [reflexivity|reflexivity|]. cbn [map removelast] in *. f_equal. exact IH.
Qed.

Definition clower (r : res (list str)) : res (list str) := match r with Ok x => Ok (map lower x) | Err e => Err e end.
Lemma components_lower b : forall comps, resolve_components b f (map lower comps) = clower (resolve_components b s comps).
Proof.
  induction b as [|b IH]; intros comps; cbn [resolve_components]; pose proof (walk_lower comps root_oid []) as W; cbn [map] in W; rewrite W;
    destruct (walk_comps s root_oid [] comps) as [r|r l rest] eqn:E; cbn [wlower]; try reflexivity.
  rewrite (follow_lower r l (walk_link_is _ _ _ _ _ _ E)). destruct (follow_link s r l) as [lp|e]; cbn [rlower rbind]; [|reflexivity].
  change (f_cfg f) with posix_cfg. rewrite (path_components_lower _ Hc), <- map_app. apply IH.
Qed.

Lemma orig_walk_lower comps : forall d, exists l, map lower (orig_walk s d comps) ++ l = map lower comps /\ skipn (length (orig_walk s d comps)) (map lower comps) = l.
Proof.
  induction comps as [|n comps IH]; intros d; cbn [orig_walk]; [exists []; auto|].
  destruct (is_dirobj s d); [|exists (map lower (n :: comps)); auto].
  destruct (directory_content s d n) as [[k o]|] eqn:E; [|exists (map lower (n :: comps)); auto].
  destruct (IH o) as (l & A & B). exists l. cbn [map app length skipn]. rewrite A. split; [|exact B]. f_equal. apply (content_name _ _ _ _ E).
Qed.
Lemma original_ci names : Forall (clean slash) names ->
  exists real, original_path s (abs_path slash names) = abs_path slash real /\ map lower real = map lower names.
Proof.
  intros Hn. unfold original_path. rewrite (ci_cs _ Hc). change (str_eqb (abs_path slash names) []) with false. cbn [orb]. cbv iota zeta.
  rewrite (path_components_ci _ Hc _ Hn). rewrite (ci_sep _ Hc).
  set (real := orig_walk s root_oid names ++ skipn (length (orig_walk s root_oid names)) names).
  assert (Er : map lower real = map lower names).
  { destruct (orig_walk_lower names root_oid) as (l & A & B). unfold real. rewrite map_app, <- A, <- B. f_equal. symmetry. apply skipn_map. }
  exists real. split; [|exact Er].
  assert (Hr : Forall (clean slash) real) by (apply cleans_lower; rewrite Er; apply cleans_lower, Hn).
  assert (Hs : forall p, starts_with_sep (f_cfg s) p = is_abs slash p).
  { intros p. unfold starts_with_sep, sep. rewrite (ci_alt _ Hc), (ci_sep _ Hc).
    destruct p as [|x p]; [reflexivity|]. cbn. rewrite ?orb_false_r, ?andb_true_r. first [reflexivity|apply Ascii.eqb_sym]. }
  rewrite !Hs. replace (is_abs slash (abs_path slash names)) with true by reflexivity. cbn [andb].
  destruct real as [|w real]; [reflexivity|]. inversion Hr as [|? ? [K1 K2] _]; subst.
  pose proof (is_abs_join posix_cfg w real K1 K2) as K. cbn [c_sep posix_cfg] in K. rewrite K. reflexivity.
Qed.

(** ** resolution *)
Hypothesis Hdnl : forall o, is_dirobj s o = true -> is_link s o = false.
Hypothesis Hroot : is_dirobj s root_oid = true.
Lemma folded_good : good f.
Proof.
  constructor.
  - apply posix_cfg_linux.
  - cbn. rewrite lower_is_abs. exact Hcwd.
  - intros o. rewrite folded_dirobj. apply Hdnl.
  - rewrite folded_dirobj. exact Hroot.
Qed.

Lemma anp_ci names : Forall (ordinary slash) names -> anp s (abs_path slash names) = abs_path slash names.
Proof.
  intros H. unfold anp. pose proof (absnormpath_abs_path _ (ci_posix _ Hc) (f_cwd s) names) as K. rewrite (ci_sep _ Hc) in K.
  apply K; [apply ci_abs, Hc|exact Hcwd|exact H].
Qed.

Lemma anp_f names : Forall (ordinary slash) names -> anp f (abs_path slash names) = abs_path slash names.
Proof. exact (anp_abs_path f names folded_good). Qed.

Lemma not_null_lower names : ~ is_null f (map lower names) -> names <> [] -> str_eqb (abs_path slash names) (devnull_name s) = false.
Proof.
  intros Hn Hne. apply str_eqb_neq. intros E. apply Hn. split; [destruct names; [congruence|discriminate]|].
  change (sepc f) with slash. rewrite <- lower_abs_path, E. reflexivity.
Qed.

Lemma resolve_path_lower names : plain slash names -> ~ is_null f (map lower names) ->
  rlower (resolve_path s (abs_path slash names)) = resolve_path f (abs_path slash (map lower names)) /\
  (forall q, resolve_path s (abs_path slash names) = Ok q -> exists r, Forall (clean slash) r /\ q = abs_path slash r).
Proof.
  intros Hp Hnn. unfold resolve_path, resolve_path_.
  change (str_eqb (abs_path slash names) []) with false. change (str_eqb (abs_path slash (map lower names)) []) with false. cbv iota.
  rewrite (rfind_none_valid _ _ s) by (rewrite (ci_sep _ Hc); apply rfind_plain; [discriminate|exact Hp]).
  rewrite (rfind_none_valid _ _ f) by (apply rfind_plain; [discriminate|apply plain_lower, Hp]). cbn [rbind negb].
  rewrite (original_path_cs f) by reflexivity.
  destruct (original_ci names (Forall_clean _ _ (proj1 Hp))) as (real & -> & Er).
  assert (Hpr : plain slash real) by (apply plain_lower; rewrite Er; apply plain_lower, Hp).
  assert (Hpl : plain slash (map lower names)) by (apply plain_lower, Hp).
  rewrite (anp_ci real (proj1 Hpr)), (anp_f _ (proj1 Hpl)).
  change (sepc f) with slash. change (f_cfg f) with posix_cfg.
  rewrite (is_root_path_ci _ Hc), (is_root_path_linux posix_cfg _ posix_cfg_linux). cbn [c_sep posix_cfg].
  rewrite (abs_path_root_eq slash real (Forall_clean _ _ (proj1 Hpr))), (abs_path_root_eq slash (map lower names) (Forall_clean _ _ (proj1 Hpl))).
  rewrite <- Er. destruct real as [|w real].
  - cbn [map rlower]. split; [reflexivity|]. intros q E. exists []. split; [constructor|]. injection E as <-. reflexivity.
  - rewrite (not_null_lower (w :: real)) by (try discriminate; rewrite Er; exact Hnn).
    replace (str_eqb (abs_path slash (map lower (w :: real))) (devnull_name f)) with false.
    2:{ symmetry. apply str_eqb_neq. intros E. apply Hnn. rewrite <- Er. split; [discriminate|exact E]. }
    cbn [map]. change (lower w :: map lower real) with (map lower (w :: real)).
    rewrite (path_components_ci _ Hc) by apply Forall_clean, Hpr.
    rewrite (path_components_clean posix_cfg posix_cfg_linux) by (apply cleans_lower, Forall_clean, Hpr).
    rewrite components_lower. destruct (resolve_components max_links s (w :: real)) as [r|e] eqn:E; cbn [clower rbind rlower].
    + assert (Hr : Forall (clean slash) r).
      { apply cleans_lower. pose proof (components_lower max_links (w :: real)) as K. rewrite E in K. cbn [clower] in K.
        apply (resolve_components_ok f max_links _ _ folded_good) in K. destruct K as (k & _ & K).
        refine (resolves_clean f k _ _ folded_good _ K). apply cleans_lower, Forall_clean, Hpr. }
      rewrite (components_to_path_ci _ Hc _ Hr), (components_to_path_clean posix_cfg posix_cfg_linux) by (apply cleans_lower, Hr).
      rewrite lower_abs_path. split; [reflexivity|]. intros q E2. exists r. split; [exact Hr|congruence].
    + split; [reflexivity|]. discriminate.
Qed.

Lemma norm_walk_lower check comps : forall d,
  norm_walk (fun _ => Err RecErr) f check d (map lower comps) = norm_walk (fun _ => Err RecErr) s check d comps.
Proof.
  induction comps as [|n comps IH]; intros d; [reflexivity|]. cbn [map norm_walk]. rewrite folded_mode.
  destruct (S_ISLNK (o_mode (ob s d))) eqn:El.
  - assert (Et : exists e, text_contents s d = Err e /\ text_contents f d = Err e \/ (exists t u, text_contents s d = Ok t /\ text_contents f d = Ok u)).
    { unfold text_contents. unfold ob at 2 4. cbn [f_heap folded o_body fold_obj]. fold (ob s d).
      destruct (o_body (ob s d)) as [es|[t|]]; cbn [fold_body]; [exists AttrErr; left; auto| |exists AttrErr; left; auto].
      rewrite El. exists AttrErr. right. eexists _, _. split; reflexivity. }
    destruct Et as (e & [[-> ->]|(t & u & -> & ->)]); reflexivity.
  - cbn [rbind]. rewrite folded_mode, get_entry_lower. change (f_cfg f) with posix_cfg. rewrite (ci_win _ Hc). cbn [c_win posix_cfg].
    destruct (S_ISDIR (o_mode (ob s d))); cbn [negb]; [|reflexivity]. destruct (get_entry s d n) as [o|[]]; try reflexivity.
    rewrite folded_mode. change (is_root f) with (is_root s).
    destruct (negb (is_root s) && check && negb (has_bit (o_mode (ob s o)) PERM_READ)); [reflexivity|apply IH].
Qed.

(** no spelling of the path, nor of where it leads, is the null device *)
Definition off_null (names : list str) : Prop :=
  ~ is_null f (map lower names) /\ forall r, resolved f (map lower names) r -> ~ is_null f r.

Lemma resolve_lower names check : plain slash names -> off_null names ->
  resolve s (abs_path slash names) check = resolve f (abs_path slash (map lower names)) check.
Proof.
  intros Hp [Hn1 Hn2]. unfold resolve, resolve_. fold (resolve_path s (abs_path slash names)). fold (resolve_path f (abs_path slash (map lower names))).
  destruct (resolve_path_lower names Hp Hn1) as [E Hq]. rewrite <- E.
  destruct (resolve_path s (abs_path slash names)) as [q|e]; cbn [rlower rbind] in *; [|reflexivity].
  destruct (Hq q eq_refl) as (r & Hr & ->). rewrite lower_abs_path in *. symmetry in E.
  assert (Hnr : ~ is_null f (map lower r)).
  { assert (Hpl : plain slash (map lower names)) by (apply plain_lower, Hp).
    apply (resolve_path_plain f (map lower names) folded_good Hpl) in E. destruct E as (rr & Hrr & E).
    apply (abs_path_clean_inj posix_cfg posix_cfg_linux) in E.
    - rewrite E. apply Hn2, Hrr.
    - apply cleans_lower, Hr.
    - refine (resolved_clean f folded_good (map lower names) rr _ Hrr). apply Forall_clean, Hpl. }
  unfold get_norm. change (sepc f) with slash. rewrite (ci_sep _ Hc).
  rewrite (abs_path_root_eq slash r Hr), (abs_path_root_eq slash (map lower r)) by (apply cleans_lower, Hr).
  destruct r as [|w r]; [reflexivity|]. cbn [map]. change (lower w :: map lower r) with (map lower (w :: r)).
  rewrite (not_null_lower (w :: r) Hnr) by discriminate.
  replace (str_eqb (abs_path slash (map lower (w :: r))) (devnull_name f)) with false.
  2:{ symmetry. apply str_eqb_neq. intros K. apply Hnr. split; [discriminate|exact K]. }
  rewrite (original_path_cs f) by reflexivity. destruct (original_ci (w :: r) Hr) as (real & -> & Er).
  assert (Hrr : Forall (clean slash) real) by (apply cleans_lower; rewrite Er; apply cleans_lower, Hr).
  rewrite (path_components_ci _ Hc _ Hrr), <- Er. change (f_cfg f) with posix_cfg.
  rewrite (path_components_clean posix_cfg posix_cfg_linux) by (apply cleans_lower, Hrr). symmetry. apply norm_walk_lower.
Qed.

Lemma exists_walk_lower comps : forall d, exists_walk f d (map lower comps) = exists_walk s d comps.
Proof.
  induction comps as [|n comps IH]; intros d; [reflexivity|]. cbn [map exists_walk]. rewrite content_lower.
  destruct (directory_content s d n) as [[k o]|]; [apply IH|reflexivity].
Qed.

Lemma exists_lower names : plain slash names -> ~ is_null f (map lower names) ->
  exists_ s (abs_path slash names) false = exists_ f (abs_path slash (map lower names)) false.
Proof.
  intros Hp Hnn. unfold exists_, exists_body. cbn [rbind].
  change (str_eqb (abs_path slash names) []) with false. change (str_eqb (abs_path slash (map lower names)) []) with false. cbv iota.
  assert (Hpl : plain slash (map lower names)) by (apply plain_lower, Hp).
  fold (resolve_path s (abs_path slash names)). fold (resolve_path f (abs_path slash (map lower names))).
  change (f_cfg f) with posix_cfg.
  assert (Hes : forall l, Forall (clean slash) l -> ends_with_path_separator (f_cfg s) (abs_path slash l) = false).
  { intros l Hl. pose proof (ends_sep_clean posix_cfg posix_cfg_linux l Hl) as K. unfold ends_with_path_separator, sep in *.
    rewrite (ci_alt _ Hc), (ci_sep _ Hc). exact K. }
  rewrite (Hes names) by apply Forall_clean, Hp. rewrite (ends_sep_clean posix_cfg posix_cfg_linux) by apply Forall_clean, Hpl. cbn [rbind].
  assert (Er : forall l, ~ is_null f (map lower l) -> l = [] -> str_eqb (abs_path slash l) (devnull_name s) = str_eqb (abs_path slash (map lower l)) (devnull_name f) \/ True) by auto. clear Er.
  destruct (resolve_path_lower names Hp Hnn) as [E Hq].
  destruct names as [|n names].
  - cbn [map] in *.
    assert (Es : resolve_path s (abs_path slash []) = Ok [slash]).
    { unfold resolve_path, resolve_path_. change (str_eqb (abs_path slash []) []) with false. cbv iota.
      rewrite (rfind_none_valid _ _ s) by (rewrite (ci_sep _ Hc); apply rfind_plain; [discriminate|exact Hp]). cbn [rbind negb].
      destruct (original_ci [] (Forall_nil _)) as (real & -> & Er). destruct real; [|discriminate]. rewrite (anp_ci [] (Forall_nil _)).
      rewrite (is_root_path_ci _ Hc). reflexivity. }
    rewrite Es in E |- *. cbn [rlower] in E. rewrite <- E. change (lower [slash]) with [slash]. cbn [rbind]. change (sepc f) with slash. rewrite (ci_sep _ Hc), str_eqb_refl.
    cbn [c_sep posix_cfg]. rewrite str_eqb_refl.
    destruct (str_eqb (abs_path slash []) (devnull_name s)), (str_eqb (abs_path slash []) (devnull_name f)); reflexivity.
  - rewrite (not_null_lower (n :: names) Hnn) by discriminate.
    replace (str_eqb (abs_path slash (map lower (n :: names))) (devnull_name f)) with false.
    2:{ symmetry. apply str_eqb_neq. intros K. apply Hnn. split; [discriminate|exact K]. }
    rewrite <- E. destruct (resolve_path s (abs_path slash (n :: names))) as [q|e]; cbn [rlower rbind] in *; [|destruct e; reflexivity].
    change (sepc f) with slash. rewrite (ci_sep _ Hc). cbn [c_sep posix_cfg]. rewrite lower_eq_slash.
    destruct (str_eqb q [slash]); [reflexivity|]. rewrite (path_components_lower _ Hc), exists_walk_lower. reflexivity.
Qed.

(** ** names *)
Lemma entry_lower d n o : entry f d (lower n) = Some o <-> exists k, lower k = lower n /\ entry s d k = Some o.
Proof.
  unfold entry at 1. rewrite folded_ents, assoc_lower. split.
  - destruct (find_lower n (ents s d)) as [[k x]|] eqn:E; [|discriminate]. intros H; injection H as ->.
    exists k. destruct (find_lower_some _ _ _ _ E) as [A B]. split; [exact A|].
    unfold entry. pose proof (H1 d) as K. clear - B K. induction (ents s d) as [|[k' x] es IH]; [destruct B|].
    cbn [assoc]. cbn [map fst] in K. inversion K as [|? ? K1 K2]; subst.
    destruct B as [B|B]; [injection B as -> ->; rewrite str_eqb_refl; reflexivity|].
    destruct (str_eqb_spec k k') as [->|]; [|apply IH; assumption]. exfalso. apply K1. apply in_map_iff. exists (k', o). auto.
  - intros (k & E & Ho). unfold entry in Ho. pose proof (find_lower_exact k (ents s d) o (H1 d) Ho) as K.
    assert (K2 : find_lower n (ents s d) = find_lower k (ents s d)).
    { clear - E. induction (ents s d) as [|[a x] es IH]; [reflexivity|]. cbn [find_lower]. rewrite E, IH. reflexivity. }
    rewrite K2, K. reflexivity.
Qed.
Lemma tree_lower names o : forall d, tree_at f d (map lower names) = Some o <-> exists real, spelling real names /\ tree_at s d real = Some o.
Proof.
  induction names as [|n names IH]; intros d; cbn [map tree_at].
  - split; [intros H; exists []; split; [constructor|exact H]|intros (real & Hs & H); inversion Hs; subst; exact H].
  - split.
    + destruct (entry f d (lower n)) as [x|] eqn:E; [|discriminate]. intros H. apply IH in H. destruct H as (real & Hs & H).
      apply entry_lower in E. destruct E as (k & Ek & Hk). exists (k :: real). split; [constructor; assumption|]. cbn [tree_at]. rewrite Hk. exact H.
    + intros (real & Hs & H). inversion Hs as [|k ? real' ? Ek Hs']; subst. cbn [tree_at] in H.
      destruct (entry s d k) as [x|] eqn:E; [|discriminate].
      assert (E2 : entry f d (lower n) = Some x) by (apply entry_lower; exists k; auto). rewrite E2. apply IH. exists real'. auto.
Qed.

Lemma searchable_iff (t : fs) d l : searchable t d l <->
  forall k o, k < length l -> tree_at t d (firstn k l) = Some o -> is_dirm t o = true.
Proof.
  split.
  - intros H k o Hk Ho. destruct (skipn k l) as [|n rest] eqn:E.
    + apply (f_equal (@length _)) in E. rewrite skipn_length in E. cbn in E. lia.
    + apply (H (firstn k l) n rest o); [rewrite <- E; symmetry; apply firstn_skipn|exact Ho].
  - intros H pre n rest o -> Ho. apply (H (length pre) o); [rewrite app_length; cbn; lia|].
    rewrite firstn_app, Nat.sub_diag, firstn_all, app_nil_r. exact Ho.
Qed.
Lemma readable_iff (t : fs) d l : readable t d l <->
  forall k o, 0 < k -> k <= length l -> tree_at t d (firstn k l) = Some o -> has_bit (o_mode (ob t o)) PERM_READ = true.
Proof.
  split.
  - intros H k o Hk Hk2 Ho. apply (H (firstn k l) (skipn k l) o); [symmetry; apply firstn_skipn| |exact Ho].
    intros E. apply (f_equal (@length _)) in E. rewrite firstn_length in E. cbn in E. lia.
  - intros H pre rest o -> Hne Ho. apply (H (length pre) o); [destruct pre; [congruence|cbn; lia]|rewrite app_length; lia|].
    rewrite firstn_app, Nat.sub_diag, firstn_all, app_nil_r. exact Ho.
Qed.
Lemma prefix_lower real names : spelling real names -> forall d o, tree_at s d real = Some o ->
  forall k, tree_at f d (firstn k (map lower names)) = tree_at s d (firstn k real).
Proof.
  intros Hs. induction Hs as [|a b l l' E Hs IH]; intros d o Ho k; [destruct k; reflexivity|].
  destruct k as [|k]; [reflexivity|]. cbn [map firstn tree_at]. cbn [tree_at] in Ho.
  destruct (entry s d a) as [y|] eqn:Ea; [|discriminate].
  assert (Ey : entry f d (lower b) = Some y) by (apply entry_lower; exists a; auto). rewrite Ey. apply (IH y o Ho).
Qed.
Lemma spelling_length real names : spelling real names -> length real = length names.
Proof. intros H. induction H; cbn; congruence. Qed.
Lemma perms_lower real names d o check : spelling real names -> tree_at s d real = Some o ->
  (searchable f d (map lower names) <-> searchable s d real) /\ (may_read f check d (map lower names) <-> may_read s check d real).
Proof.
  intros Hs Ho. pose proof (prefix_lower real names Hs d o Ho) as K. pose proof (spelling_length _ _ Hs) as Hl.
  split.
  - rewrite !searchable_iff, map_length, <- Hl. split; intros H k x Hk Hx; apply (H k x Hk).
    + rewrite K. exact Hx.
    + rewrite <- K. exact Hx.
  - unfold may_read. change (is_root f) with (is_root s).
    assert (R : readable f d (map lower names) <-> readable s d real).
    { rewrite !readable_iff, map_length, <- Hl. split; intros H k x H0 Hk Hx; apply (H k x H0 Hk).
      - rewrite K. exact Hx.
      - rewrite <- K. exact Hx. }
    rewrite R. reflexivity.
Qed.
End St.
