(** * Which exceptions calls raise (C65, C66). *)
From Verif Require Export HistThm ParentInv GraphRename Honest.
From Coq Require Import List Bool ZArith Lia Ascii.
Import ListNotations.

(** ** Rules *)
Definition errs {A} (E : exn -> Prop) (m : M A) (s : fs) : Prop := forall e, fst (m s) = Err e -> E e.
Section Rules.
Variable E : exn -> Prop.
Lemma es_bind {A B} (m : M A) (k : A -> M B) s : errs E m s ->
  (forall x, fst (m s) = Ok x -> errs E (k x) (snd (m s))) -> errs E (bind m k) s.
Proof.
  unfold errs, bind. intros H K e. destruct (m s) as [[x|x] s'] eqn:Em; cbn [fst snd] in *; [apply (K x eq_refl)|].
  cbn [fst]. intros [= <-]. apply H. reflexivity.
Qed.
Lemma es_gets {A B} (f : fs -> A) (k : A -> M B) s : errs E (k (f s)) s -> errs E (bind (gets f) k) s.
Proof. intros H. exact H. Qed.
Lemma es_ret {A B} (a : A) (k : A -> M B) s : errs E (k a) s -> errs E (bind (ret a) k) s.
Proof. intros H. exact H. Qed.
Lemma es_modify {B} f (k : unit -> M B) s : errs E (k tt) (f s) -> errs E (bind (modify f) k) s.
Proof. intros H. exact H. Qed.
Lemma es_mod_obj {B} o f (k : unit -> M B) s : errs E (k tt) (mod_ob s o f) -> errs E (bind (mod_obj o f) k) s.
Proof. intros H. exact H. Qed.
Lemma es_lift {A B} (f : fs -> res A) (k : A -> M B) s : (forall e, f s = Err e -> E e) ->
  (forall x, f s = Ok x -> errs E (k x) s) -> errs E (bind (lift f) k) s.
Proof.
  intros H K e. unfold bind, lift. destruct (f s) as [x|x] eqn:Ef; [apply (K x eq_refl)|]. cbn [fst]. intros [= <-]. apply H; reflexivity.
Qed.
Lemma es_raise {A} e s : E e -> errs E (@raise A e) s.
Proof. intros H e' [= <-]. exact H. Qed.
Lemma es_end {A} (a : A) s : errs E (ret a) s. Proof. intros e [=]. Qed.
Lemma es_endg {A} (f : fs -> A) s : errs E (gets f) s. Proof. intros e [=]. Qed.
Lemma es_endm f s : errs E (modify f) s. Proof. intros e [=]. Qed.
Lemma es_endo o f s : errs E (mod_obj o f) s. Proof. intros e [=]. Qed.
Lemma es_endl {A} (f : fs -> res A) s : (forall e, f s = Err e -> E e) -> errs E (lift f) s. Proof. intros H. exact H. Qed.
Lemma es_assoc {A B C} (m : M A) (k : A -> M B) (k2 : B -> M C) s :
  errs E (bind m (fun x => bind (k x) k2)) s -> errs E (bind (bind m k) k2) s.
Proof. unfold errs, bind. intros H e. specialize (H e). destruct (m s) as [[x|x] s']; exact H. Qed.
Lemma es_catch {A} (m : M A) h s : (forall e, fst (m s) = Err e -> errs E (h e) (snd (m s))) -> errs E (catch m h) s.
Proof. unfold errs, catch. intros H e. destruct (m s) as [[x|x] s'] eqn:Em; cbn [fst snd] in *; [discriminate|]. apply (H x eq_refl). Qed.
Lemma es_when b m s : (b = true -> errs E m s) -> errs E (when b m) s.
Proof. destruct b; [intros H; apply H; reflexivity|intros _; apply es_end]. Qed.
Lemma es_raise_bind {A B} e (k : A -> M B) s : E e -> errs E (bind (raise e) k) s.
Proof. intros H e' [= <-]. exact H. Qed.
Lemma es_outm {A} (f : A -> out) (m : M A) s : errs E m s -> errs E (outm f m) s.
Proof. intros H. unfold outm. apply es_bind; [exact H|]. intros x _. apply es_end. Qed.
End Rules.
Lemma es_weaken {A} (E E' : exn -> Prop) (m : M A) s : (forall e, E e -> E' e) -> errs E m s -> errs E' m s.
Proof. intros K H e Ee. apply K, H, Ee. Qed.

(** OSError; and without [b], anything but an endless recursion. *)
Definition okerr (b : bool) (e : exn) : Prop := (exists x, e = OSErr x) \/ (b = false /\ e <> RecErr).
Lemma ok_os b x : okerr b (OSErr x). Proof. left. eexists. reflexivity. Qed.
Lemma ok_look b e : lookup_exn e -> (b = true -> e <> AttrErr) -> okerr b e.
Proof.
  intros [K|K] H; [left; exact K|]. subst e. right. destruct b; [destruct (H eq_refl eq_refl)|]. split; [reflexivity|discriminate].
Qed.
Lemma ok_attr b e : e = AttrErr -> (b = true -> e <> AttrErr) -> okerr b e.
Proof. intros -> H. apply ok_look; [apply lookup_attr|exact H]. Qed.

Definition II (b : bool) (s : fs) : Prop := GP s /\ (b = true -> Hst True [] None s).

Section Look.
Variable b : bool.
Variable s : fs.
Hypothesis HI : II b s.
Let HG : Ginv s := proj1 (proj1 HI).
Let HP : Pinv s := proj2 (proj1 HI).
Lemma II_dirs : b = true -> honest_dirs s.
Proof. intros Hb o. destruct (hs_ok _ _ _ _ (proj2 HI Hb) o) as [K _]. exact K. Qed.
Lemma II_bits : b = true -> forall o, has_bit (o_mode (ob s o)) S_IFDIR = is_dirobj s o.
Proof. intros Hb o. destruct (hs_ok _ _ _ _ (proj2 HI Hb) o) as [_ K]. exact K. Qed.
Lemma II_links : b = true -> honest_links s.
Proof.
  intros Hb d n o Ho Hl. apply entry_In in Ho. apply (hs_txt _ _ _ _ (proj2 HI Hb) Logic.I d n o Ho); [discriminate|]. exact Hl.
Qed.
Lemma ok_resolve_path p e : resolve_path s p = Err e -> okerr b e.
Proof. intros K. apply ok_look; [apply (lookup_ok_resolve_path s HG p e K)|]. intros Hb ->. apply (nr_path s HG (II_links Hb) (II_dirs Hb) p K). Qed.
Lemma ok_resolve p c e : resolve s p c = Err e -> okerr b e.
Proof. intros K. apply ok_look; [apply (lookup_ok_resolve s HG p c e K)|]. intros Hb ->. apply (nr_resolve s HG (II_links Hb) (II_dirs Hb) p c K). Qed.
Lemma ok_lresolve p e : lresolve s p = Err e -> okerr b e.
Proof. intros K. apply ok_look; [apply (lookup_ok_lresolve s HG p e K)|]. intros Hb ->. apply (nr_lresolve s HG (II_links Hb) (II_dirs Hb) p K). Qed.
Lemma ok_follow p f c e : resolve_follow s p f c = Err e -> okerr b e.
Proof. unfold resolve_follow, resolve_any. destruct f; [apply ok_resolve|apply ok_lresolve]. Qed.
Lemma ok_exists p cl e : exists_ s p cl = Err e -> okerr b e.
Proof. intros K. apply ok_attr; [apply (lookup_ok_exists s HG p cl e K)|]. intros Hb ->. apply (nr_exists s HG (II_links Hb) (II_dirs Hb) p cl K). Qed.
Lemma ok_sep p o f m e : raise_for_sep s p o f m = Err e -> okerr b e.
Proof. intros K. apply ok_look; [apply (lookup_ok_raise s HG p o f m e K)|]. intros Hb ->. apply (nr_sep s HG (II_links Hb) (II_dirs Hb) p o f m K). Qed.
Lemma ok_type p fl f e : is_of_type s p fl f = Err e -> okerr b e.
Proof.
  intros K. apply ok_attr; [apply (lookup_ok_type s HG p fl f e K)|]. intros Hb ->.
  destruct (type_total s p fl f HG (II_links Hb) (II_dirs Hb)) as [x Hx]. rewrite Hx in K. discriminate.
Qed.
Lemma ok_confirm p e : confirmdir s p = Err e -> okerr b e.
Proof. intros K. apply ok_look; [apply (lookup_ok_confirm s HG p e K)|]. intros Hb ->. apply (nr_confirm s HG (II_links Hb) (II_dirs Hb) p K). Qed.
End Look.
Lemma ok_object b s p c e : II b s -> get_object s p c = Err e -> okerr b e.
Proof.
  intros HI K. apply ok_look; [apply (get_object_exn s p c e (Ginv_good s (proj1 (proj1 HI))) K)|].
  intros Hb ->. apply (nr_object s (proj1 (proj1 HI)) (II_links b s HI Hb) (II_dirs b s HI Hb) p c K).
Qed.
Lemma ok_text b s d n o e : II b s -> entry s d n = Some o -> S_ISLNK (o_mode (ob s o)) = true -> text_contents s o = Err e -> okerr b e.
Proof.
  intros HI Ho Hl K. apply ok_attr; [apply (lookup_ok_text s o e K)|]. intros Hb ->.
  destruct (II_links b s HI Hb d n o Ho Hl) as [t Ht]. unfold text_contents in K. rewrite Ht in K. discriminate.
Qed.
Lemma II_pres {A} b (m : M A) s : preserves GP m -> (b = true -> preserves (Hst True [] None) m) -> II b s -> II b (snd (m s)).
Proof. intros P H [HG HH]. split; [apply P, HG|]. intros Hb. apply (H Hb), HH, Hb. Qed.

Definition os_only (e : exn) : Prop := exists x, e = OSErr x.
Lemma os_ok b e : os_only e -> okerr b e. Proof. intros [x ->]. apply ok_os. Qed.
Ltac os := first [apply ok_os|eexists; reflexivity].

Ltac es1 := lazymatch goal with
  | |- errs _ (bind (gets _) _) _ => apply es_gets; cbv beta
  | |- errs _ (bind (modify _) _) _ => apply es_modify; cbv beta
  | |- errs _ (bind (mod_obj _ _) _) _ => apply es_mod_obj; cbv beta
  | |- errs _ (bind (ret _) _) _ => apply es_ret; cbv beta iota
  | |- errs _ (bind (lift _) _) _ => apply es_lift; [let e := fresh "e" in let H := fresh "He" in intros e H|let x := fresh "x" in let H := fresh "Hx" in intros x H]
  | |- errs _ (bind (raise _) _) _ => apply es_raise_bind
  | |- errs _ (bind (raise_os _) _) _ => unfold raise_os; apply es_raise_bind
  | |- errs _ (bind (bind _ _) _) _ => apply es_assoc
  | |- errs _ (ret _) _ => apply es_end
  | |- errs _ (gets _) _ => apply es_endg
  | |- errs _ (modify _) _ => apply es_endm
  | |- errs _ (mod_obj _ _) _ => apply es_endo
  | |- errs _ (raise_os _) _ => unfold raise_os; apply es_raise; try solve [os]
  | |- errs _ (raise _) _ => apply es_raise
  | |- errs _ (lift _) _ => apply es_endl; let e := fresh "e" in let H := fresh "He" in intros e H
  | |- errs _ (when _ _) _ => apply es_when; let H := fresh "Hw" in intros H
  end.
Ltac look := solve [os | match goal with
  | HI : II ?b ?s, H : resolve ?s _ _ = Err _ |- okerr ?b _ => apply (ok_resolve b s HI _ _ _ H)
  | HI : II ?b ?s, H : lresolve ?s _ = Err _ |- okerr ?b _ => apply (ok_lresolve b s HI _ _ H)
  | HI : II ?b ?s, H : resolve_path ?s _ = Err _ |- okerr ?b _ => apply (ok_resolve_path b s HI _ _ H)
  | HI : II ?b ?s, H : resolve_follow ?s _ _ _ = Err _ |- okerr ?b _ => apply (ok_follow b s HI _ _ _ _ H)
  | HI : II ?b ?s, H : exists_ ?s _ _ = Err _ |- okerr ?b _ => apply (ok_exists b s HI _ _ _ H)
  | HI : II ?b ?s, H : raise_for_sep ?s _ _ _ _ = Err _ |- okerr ?b _ => apply (ok_sep b s HI _ _ _ _ _ H)
  | HI : II ?b ?s, H : confirmdir ?s _ = Err _ |- okerr ?b _ => apply (ok_confirm b s HI _ _ H)
  | HI : II ?b ?s, H : islink ?s _ = Err _ |- okerr ?b _ => apply (ok_type b s HI _ _ _ _ H)
  | HI : II ?b ?s, H : isdir ?s _ _ = Err _ |- okerr ?b _ => apply (ok_type b s HI _ _ _ _ H)
  | HI : II ?b ?s, H : get_object ?s _ _ = Err _ |- okerr ?b _ => apply (ok_object b s _ _ _ HI H)
  end].
Ltac es := repeat es1; try look.

(** ** Primitives *)
Lemma es_cdu d v s : errs os_only (change_disk_usage d v) s.
Proof.
  intros e. unfold change_disk_usage. destruct (mount_for_dev _ _) as [m|]; [|discriminate].
  destruct (m_total m); [destruct (_ <? _)%Z|]; try discriminate. intros [= <-]. os.
Qed.
Lemma es_add_entry b d o s : (b = true -> is_dirobj s d = true) -> errs (okerr b) (add_entry d o) s.
Proof.
  intros Hd. unfold add_entry. es. destruct (is_dirobj s d); cbn [negb].
  - es. destruct (_ && _); [es|]. es. destruct (match assoc _ _ with Some _ => _ | None => _ end); [es|].
    apply es_bind; [intros e K; rewrite link_obj_ok in K; discriminate|]. intros [] _. es. destruct (Z.eqb _ 1); es.
    apply (es_weaken os_only); [apply os_ok|apply es_cdu].
  - es. right. destruct b; [discriminate (Hd eq_refl)|]. split; [reflexivity|discriminate].
Qed.
Lemma es_add_object b p o s : II b s -> errs (okerr b) (add_object p o) s.
Proof.
  intros HI. unfold add_object.
  destruct (str_eqb p []).
  - es. apply es_add_entry. intros _. apply (gi_root s (proj1 (proj1 HI))).
  - es. destruct (S_ISDIR (o_mode (ob s x))) eqn:E; cbn [negb]; es. apply es_add_entry. intros Hb.
    rewrite <- (II_dirs b s HI Hb x). exact E.
Qed.
Lemma es_remove_object s p : Ginv s -> errs os_only (remove_object p) s.
Proof.
  intros H. unfold remove_object. es. destruct (is_root_path _ _); [es|]. apply es_catch. intros e Ee.
  assert (K : errs (fun e => os_only e \/ e = KeyErr \/ e = AttrErr)
    (hd <- gets (fun s0 => splitpath (f_cfg s0) (anp s (original_path s p)));; d <- lift (fun s0 => resolve s0 (fst hd) false);;
     isd <- gets (fun s0 => is_dirobj s0 d);; (if negb isd then raise AttrErr else remove_entry d (snd hd) true)) s).
  { es.
    - destruct (lookup_ok_resolve s H _ _ _ He) as [K|K]; [left; exact K|right; right; exact K].
    - destruct (is_dirobj s x); cbn [negb]; es; [|right; right; reflexivity].
      intros e1 E1. destruct (wp_remove_entry x (snd (splitpath (f_cfg s) (anp s (original_path s p)))) true s H) as [_ W]. rewrite E1 in W.
      destruct W as (_ & _ & W). destruct (entry s x _).
      + left. destruct W as [-> | ->]; os.
      + destruct W as [_ ->]. destruct (is_dirobj s x); [right; left|right; right]; reflexivity. }
  destruct (K e Ee) as [[x ->]|[->| ->]]; es.
Qed.
Lemma es_remove_object' b s p : II b s -> errs (okerr b) (remove_object p) s.
Proof. intros HI. apply (es_weaken os_only); [apply os_ok|apply es_remove_object, (proj1 (proj1 HI))]. Qed.
Lemma es_set_modes E m l : forall s, errs E (set_modes m l) s.
Proof. induction l as [|o l IH]; intros s; cbn [set_modes]; es. apply IH. Qed.

(** ** Making directories *)
Lemma II_alloc b s nm mode bd : II b s -> (bd = BDir [] \/ exists d, bd = BFile d) -> (bd = BDir [] -> has_bit mode S_IFDIR = true) ->
  (b = true -> Hst True [] None (snd (alloc nm mode bd s))) -> II b (snd (alloc nm mode bd s)).
Proof.
  intros [[HG HP] HH] Hb Hm Ha. split; [|exact Ha]. split; [apply Ginv_alloc; assumption|apply Pinv_alloc; assumption].
Qed.
Lemma II_new_dir b s nm perm : II b s -> (b = true -> (perm < 4096)%N) -> II b (snd (new_dir nm perm s)).
Proof.
  intros HI Hp. unfold new_dir. apply II_alloc; [exact HI|left; reflexivity|intros _; apply lor_ifdir|].
  intros Hb. eapply H_weaken; [|apply (new_dir_H True [] None nm perm s lts_nil (Hp Hb) (proj2 HI Hb))]. intros x [].
Qed.
Lemma es_create_dirs b comps : forall cur new s, II b s -> Forall (ordinary (sepc s)) comps -> cur < f_next s ->
  (b = true -> is_dirobj s cur = true) -> errs (okerr b) (create_dirs cur new comps) s.
Proof.
  induction comps as [|comp comps IH]; intros cur new s HI Hc Hlt Hcur; cbn [create_dirs].
  - es.
  - inversion Hc as [|? ? Hc1 Hc2]; subst. assert (H := proj1 (proj1 HI)). assert (P := proj2 (proj1 HI)).
    es. rewrite (directory_content_cs s cur comp (Ginv_cs s H)).
    destruct (entry s cur comp) as [o|] eqn:E.
    + es. assert (Ho := entry_lt s cur comp o H E).
      assert (Hrest : forall d, d < f_next s -> errs (okerr b) (bad <- gets (fun s => negb (N.eqb (N.land (o_mode (ob s d)) S_IFDIR) S_IFDIR)) ;;
          (if bad : bool then raise_os ENOTDIR else create_dirs d new comps)) s).
      { intros d Hd. es. destruct (N.eqb _ _) eqn:Eb; cbn [negb]; [|es]. apply IH; try assumption.
        intros Hb. rewrite <- (II_bits b s HI Hb d). unfold has_bit. apply N.eqb_eq in Eb. rewrite Eb. reflexivity. }
      destruct (S_ISLNK (o_mode (ob s o))) eqn:El.
      * es.
        -- destruct (text_contents s o) as [t|e'] eqn:Et; cbn [rbind] in He.
           ++ look.
           ++ injection He as <-. apply (ok_text b s cur comp o e' HI E El Et).
        -- destruct (text_contents s o) as [t|e'] eqn:Et; cbn [rbind] in Hx; [|discriminate].
           apply Hrest, (resolve_lt s t true x H Hx).
      * apply es_ret. apply Hrest, Ho.
    + set (s1 := snd (new_dir comp PERM_DEF s)).
      assert (I1 : II b s1) by (apply II_new_dir; [exact HI|intros _; reflexivity]).
      apply es_bind; [intros e [=]|]. intros x Ex. assert (x = f_next s) as -> by (injection Ex as <-; reflexivity). fold s1.
      assert (H1 := proj1 (proj1 I1)). assert (P1 := proj2 (proj1 I1)).
      assert (A1 : addable s1 (f_next s)) by (apply addable_alloc; [exact H|exact Hc1|left; reflexivity|intros _; apply lor_ifdir]).
      assert (Hn1 : f_next s1 = S (f_next s)) by reflexivity.
      assert (D1 : is_dirobj s1 (f_next s) = true).
      { unfold is_dirobj, ob, s1. cbn. unfold upd. rewrite Nat.eqb_refl. reflexivity. }
      apply es_bind.
      { apply es_add_entry. intros Hb. specialize (Hcur Hb). revert Hcur. unfold is_dirobj, ob, s1. cbn. unfold upd.
        destruct (Nat.eqb cur (f_next s)) eqn:Eq; [|auto]. apply Nat.eqb_eq in Eq. lia. }
      intros [] Er.
      pose proof (wp_add_addable s1 cur (f_next s) H1 A1 ltac:(lia)) as W1. unfold wp in W1.
      pose proof (wp_add_entry_P s1 cur (f_next s) P1 ltac:(lia)) as W2. unfold wp in W2.
      assert (W3 : b = true -> Hst True (newdir (f_next s) ++ []) None (snd (add_entry cur (f_next s) s1))).
      { intros Hb. apply add_entry_H; [split; [right; right; left; reflexivity|right; right; right; left; reflexivity]|].
        apply (new_dir_H True [] None comp PERM_DEF s lts_nil); [reflexivity|]. apply (proj2 HI Hb). }
      destruct W1 as [H2 [(W1 & _)|(Hd & _ & Ha & _)]]; [destruct (W1 Er)|].
      set (s2 := snd (add_entry cur (f_next s) s1)) in *.
      assert (En : f_next s2 = S (f_next s)) by (rewrite (added_next _ _ _ _ Ha); exact Hn1).
      apply IH.
      * split; [split; [exact H2|apply W2]|].
        -- intros _. apply fresh_off_chain; [exact H|exact P|lia].
        -- intros Hb. eapply H_weaken; [|apply (W3 Hb)]. intros y [].
      * rewrite (added_cfg _ _ _ _ Ha). exact Hc2.
      * lia.
      * intros _. rewrite (added_dirobj s1 s2 cur _ _ Hd Ha). exact D1.
Qed.
Lemma es_create_dir b p perm s : II b s -> errs (okerr b) (create_dir p perm) s.
Proof.
  intros HI. assert (H := proj1 (proj1 HI)). pose proof (Ginv_good s H) as Hg. unfold create_dir. cbn [create_dir_n]. unfold create_dir_body.
  es. destruct (anp_names s (make_string_path (f_cfg s) p) Hg) as (names & Hn & En). rewrite En.
  unfold auto_mount at 1. es. rewrite (Ginv_win s H). es. destruct x; es.
  apply es_bind.
  - apply es_create_dirs.
    + exact HI.
    + rewrite (path_components_clean _ (gi_lin s H) _ (Forall_clean _ _ Hn)). exact Hn.
    + pose proof (gi_next s H). unfold root_oid. lia.
    + intros _. apply (gi_root s H).
  - intros [c' new'] _. apply es_bind; [apply es_set_modes|]. intros [] _. es.
Qed.
Lemma II_create_dir b p perm s : II b s -> (b = true -> (perm < 4096)%N) -> II b (snd (create_dir p perm s)).
Proof.
  intros HI Hp. apply II_pres; [apply create_dir_GP| |exact HI]. intros Hb. apply create_dir_H; [apply lts_nil|apply Hp, Hb].
Qed.

(** ** Making files *)
Lemma es_set_size o n s : is_dirobj s o = false -> errs os_only (set_size o n) s.
Proof.
  intros Hd. unfold set_size. es. unfold is_dirobj in Hd. destruct (o_body (ob s o)) as [|data]; [discriminate|].
  destruct (n <? 0)%Z; [es|]. es. apply es_bind; [apply es_cdu|]. intros [] _. es.
Qed.
Lemma set_size_dir o n s x : is_dirobj (snd (set_size o n s)) x = is_dirobj s x.
Proof. exact (gs_dir _ _ (set_size_keeps o n s) x). Qed.
Lemma es_fill o c sz s : is_dirobj s o = false -> errs os_only (fill_file o c sz) s.
Proof.
  intros Hd.
  assert (Hi : forall c, errs os_only (set_initial_contents o c ;;; ret tt) s).
  { intros c0. apply es_bind; [|intros; es]. unfold set_initial_contents. destruct (Nat.eqb o devnull_oid); es.
    apply es_bind; [apply es_cdu|]. intros [] _. es. apply es_bind; [apply es_when; intros _; apply es_set_size|intros [] _; es].
    unfold is_dirobj in *. rewrite cdu_ob. exact Hd. }
  unfold fill_file. destruct sz as [n|]; [|destruct c; apply Hi].
  unfold set_large_file_size. destruct (n <? 0)%Z; [es|]. es. apply es_bind; [apply es_when; intros _; apply es_set_size, Hd|].
  intros [] _. es. apply es_bind; [apply es_cdu|]. intros [] _. es.
Qed.
(** modes of new files: no other type, or that of links *)
Definition okmode (mode : N) (um : bool) : Prop :=
  (forall um0, file_mode (if um then N.ldiff mode um0 else mode)) \/ (um = false /\ mode = N.lor S_IFLNK PERM_DEF).
Lemma es_create_int b p mode c sz md um s : II b s -> (b = true -> okmode mode um) ->
  errs (okerr b) (create_file_internally p mode c sz md um) s.
Proof.
  intros HI Hmode. assert (H := proj1 (proj1 HI)). pose proof (Ginv_good s H) as Hg. unfold create_file_internally. es.
  destruct (anp_names s (make_string_path (f_cfg s) p) Hg) as (names & Hn & En). rewrite En in *.
  destruct x; [es|].
  destruct (names_cases names) as [->|(pre & n & ->)]; [rewrite (exists_root s true H) in Hx; discriminate|].
  es. rewrite (splitpath_abs_path _ (linux_like_posix _ (gi_lin s H)) _ _ Hn) in *. cbn [fst snd] in *.
  destruct (ordinary_last _ _ _ Hn) as [Hpre Hno].
  change (str_eqb (abs_path (sepc s) pre) []) with false. cbv iota.
  unfold auto_mount_drive, auto_mount. es. rewrite (Ginv_win s H). es.
  assert (Hrest : forall pd s1, II b s1 -> f_cfg s1 = f_cfg s -> errs (okerr b) (mode' <- gets (fun s => if um then N.ldiff mode (f_umask s) else mode) ;;
    o <- new_file n mode' ;; add_object pd o ;;;
    catch (fill_file o c sz) (fun e => match e with OSErr _ => remove_object (abs_path (sepc s) (pre ++ [n])) ;;; raise e | _ => raise e end) ;;;
    ret o) s1).
  { intros pd s1 I1 Ec. es.
    match goal with |- context [new_file n ?mm] => set (m2 := mm) in *; set (s2 := snd (new_file n mm s1)) end.
    apply es_bind; [intros e [=]|]. intros y Ey. assert (y = f_next s1) as -> by (injection Ey as <-; reflexivity). fold s2.
    assert (I2 : II b s2).
    { unfold s2, new_file. apply II_alloc; [exact I1|right; eexists; reflexivity|discriminate|]. intros Hb.
      destruct (Hmode Hb) as [K|[-> ->]].
      - eapply H_weaken; [|apply (new_file_H True [] None n m2 s1 lts_nil (K _) (proj2 I1 Hb))]. intros z [].
      - eapply H_weaken; [|apply (new_link_H True [] None n s1 lts_nil (proj2 I1 Hb))]. intros z []. }
    assert (H2 := proj1 (proj1 I2)).
    assert (A2 : addable s2 (f_next s1)).
    { apply addable_alloc; [exact (proj1 (proj1 I1))|rewrite Ec; exact Hno|right; eexists; reflexivity|discriminate]. }
    assert (D2 : is_dirobj s2 (f_next s1) = false).
    { unfold is_dirobj, ob, s2. cbn. unfold upd. rewrite Nat.eqb_refl. reflexivity. }
    apply es_bind; [apply es_add_object, I2|]. intros [] Er. change (fst (add_object pd (f_next s1) s2) = Ok tt) in Er.
    pose proof (wp_add_object s2 pd (f_next s1) H2 A2) as W. unfold wp in W. rewrite Er in W.
    destruct W as [H3 [(_ & e & W)|(d & _ & Hd & _ & _ & Ha & _)]]; [discriminate|].
    set (s3 := snd (add_object pd (f_next s1) s2)) in *.
    assert (D3 : is_dirobj s3 (f_next s1) = false) by (rewrite (added_dirobj s2 s3 d _ _ Hd Ha); exact D2).
    apply es_bind; [|intros [] _; es]. apply es_catch. intros e Ee.
    destruct (es_fill (f_next s1) c sz s3 D3 e Ee) as [en ->].
    apply es_bind; [|intros [] _; es].
    apply (es_weaken os_only); [apply os_ok|apply es_remove_object].
    apply (gsame_Ginv s3 _ (wp_fill_file (f_next s1) c sz s3 D3) H3). }
  destruct x; cbn [negb].
  - apply es_gets. apply Hrest; [exact HI|reflexivity].
  - destruct md; cbn [negb]; [|es]. es. apply es_bind; [apply es_create_dir, HI|].
    intros y _. es. apply Hrest; [apply II_create_dir; [exact HI|intros _; reflexivity]|].
    apply (wp_cfg (create_dir (abs_path (sepc s) pre) PERM_DEF) s). intros c0. apply create_dir_cfg.
Qed.
Lemma link_mode : okmode (N.lor S_IFLNK PERM_DEF) false.
Proof. right. split; reflexivity. Qed.
Lemma es_symlink b p t md s : II b s -> errs (okerr b) (create_symlink p t md) s.
Proof.
  intros HI. assert (H := proj1 (proj1 HI)). unfold create_symlink. es. rewrite !(Ginv_win s H), !(Ginv_mac s H). cbv zeta. cbn [negb].
  match goal with |- errs _ (bind ?m _) _ => assert (Hm : errs (okerr b) m s /\ (forall u, fst (m s) = Ok u -> snd (m s) = s)) end.
  { destruct (ends_with_path_separator _ _); [|split; [es|reflexivity]]. split.
    - es. destruct x; es. destruct x; es. destruct x; cbn [negb]; es.
    - unfold bind, lift, raise_os, raise, when. intros u. destruct (exists_ s _ false) as [[|]|]; cbn [fst snd]; try discriminate.
      destruct (exists_ s _ false) as [[|]|]; cbn [fst snd]; try discriminate.
      destruct (exists_ s _ true) as [[|]|]; cbn [fst snd negb]; discriminate. }
  destruct Hm as [Hm1 Hm2]. apply es_bind; [exact Hm1|]. intros [] Hu. rewrite (Hm2 _ Hu). es.
  destruct x; es; apply es_create_int; try exact HI; intros _; apply link_mode.
Qed.
Lemma es_create_link b old new f md s : II b s -> errs (okerr b) (create_link old new f md) s.
Proof.
  intros HI. assert (H := proj1 (proj1 HI)). pose proof (Ginv_good s H) as Hg. unfold create_link. es.
  destruct x; [es|]. es. cbv zeta.
  set (nd := if str_eqb _ [] then _ else _) in *.
  assert (Hrest : forall s1, II b s1 -> errs (okerr b) (
     if ends_with_path_separator (f_cfg s) old then raise_os (if c_win (f_cfg s) then EINVAL else ENOTDIR) else
     if negb (c_win (f_cfg s)) && ends_with_path_separator (f_cfg s) new then raise_os ENOENT else
     o <- catch (lift (fun s => resolve_follow s old f true))
             (fun e => match e with OSErr _ => raise_os ENOENT | _ => raise e end) ;;
     isd <- gets (fun s => has_bit (o_mode (ob s o)) S_IFDIR) ;;
     if isd : bool then raise_os (if c_win (f_cfg s) then EACCES else EPERM) else
     mod_obj o (fun x => wo_name x (snd (splitpath (f_cfg s) (anp s new)))) ;;;
     add_object nd o ;;;
     ret o) s1).
  { intros s1 I1. destruct (ends_with_path_separator _ old); [es|]. destruct (_ && _); [es|].
    assert (Ec : forall s0, (s0 = s1) -> errs (okerr b) (catch (lift (fun s => resolve_follow s old f true))
             (fun e => match e with OSErr _ => raise_os ENOENT | _ => raise e end)) s0 /\
             snd (catch (lift (fun s => resolve_follow s old f true))
             (fun e => match e with OSErr _ => raise_os ENOENT | _ => raise e end) s0) = s0).
    { intros s0 ->. split.
      - apply es_catch. intros e Ee. unfold lift in Ee. cbn [fst] in Ee. assert (K := ok_follow b s1 I1 _ _ _ _ Ee). destruct e; es; exact K.
      - unfold catch, lift. destruct (resolve_follow s1 old f true) as [|[]]; reflexivity. }
    destruct (Ec s1 eq_refl) as [Ec1 Ec2]. apply es_bind; [exact Ec1|]. intros o Eo. rewrite Ec2. es.
    destruct (has_bit (o_mode (ob s1 o)) S_IFDIR) eqn:Eb; [es|]. es.
    apply es_bind; [|intros [] _; es]. apply es_add_object.
    destruct (root_not_nodir s1 o (proj1 (proj1 I1)) Eb) as [Hr Hd].
    match goal with |- II b (mod_ob s1 o ?ff) => assert (G := gsame_rename_file s1 o (snd (splitpath (f_cfg s) (anp s new))) Hd Hr) end.
    split; [split; [apply (gsame_Ginv s1 _ G), (proj1 (proj1 I1))|apply (Pinv_gsame s1 _ G), (proj2 (proj1 I1))]|].
    intros Hb. refine (H_mod True [] None o _ _ _ s1 (proj2 I1 Hb)); intros ?; reflexivity. }
  destruct x; cbn [negb].
  - es. apply Hrest, HI.
  - destruct md; [|es]. es. apply es_bind; [apply es_create_dir, HI|]. intros y _. es. apply Hrest, II_create_dir; [exact HI|intros _; reflexivity].
Qed.
Lemma es_makedir b p m s : II b s -> (b = true -> (m < 4096)%N) -> errs (okerr b) (makedir p m) s.
Proof.
  intros HI Hm. assert (H := proj1 (proj1 HI)). unfold makedir. es. rewrite !(Ginv_win s H), !(Ginv_mac s H). cbv zeta.
  destruct (str_eqb _ []); [es|]. es.
  match goal with |- errs _ (bind ?m _) _ => assert (Hq : errs (okerr b) m s /\ snd (m s) = s) end.
  { destruct (negb _); [|split; [es|reflexivity]]. split; [es; destruct x; cbn [negb]; es|].
    unfold bind, lift, raise_os, raise, ret. destruct (exists_ s _ false) as [[|]|]; reflexivity. }
  destruct Hq as [Hq1 Hq2]. apply es_bind; [exact Hq1|]. intros [] _. rewrite Hq2. es.
  rewrite andb_false_r. destruct x; es; cbn [andb]; es.
  apply es_bind; [intros e [=]|]. intros o Eo. apply es_add_object. apply II_new_dir; [exact HI|]. intros Hb. apply ldiff_small, Hm, Hb.
Qed.
Lemma scan_err s comps e : forall cur, makedirs_scan s cur comps = Err e ->
  e = TypeErr /\ exists pre n post o, comps = pre ++ n :: post /\ tree_at s cur pre = Some o /\ is_large s o = true.
Proof.
  induction comps as [|x l IH]; intros cur; cbn [makedirs_scan]; [discriminate|]. destruct (o_body (ob s cur)) as [es|[d|]] eqn:Eb; try discriminate.
  - destruct (assoc x es) as [o|] eqn:Ea; [|discriminate]. intros K. destruct (IH o K) as (He & pre & n & post & y & -> & Ht & Hl).
    split; [exact He|]. exists (x :: pre), n, post, y. split; [reflexivity|]. split; [|exact Hl]. cbn [tree_at]. unfold entry, ents. rewrite Eb, Ea. exact Ht.
  - intros [= <-]. split; [reflexivity|]. exists [], x, l, cur. split; [reflexivity|]. split; [reflexivity|]. unfold is_large. rewrite Eb. reflexivity.
Qed.
Lemma es_makedirs b p m eo s : II b s -> (b = true -> (m < 4096)%N) -> errs (fun e => okerr b e \/ (e = TypeErr /\ exists pre n post o, names_of s p (pre ++ n :: post) /\ at_names s pre = Some o /\ is_large s o = true)) (makedirs p m eo) s.
Proof.
  intros HI Hm. assert (H := proj1 (proj1 HI)). unfold makedirs. es. destruct (str_eqb p []) eqn:Ep; [es; left; os|]. es. cbv zeta.
  rewrite !(Ginv_win s H), !(Ginv_mac s H), andb_false_r. es.
  { right. destruct (scan_err _ _ _ _ He) as (-> & pre & n & post & o & Hc & Ht & Hl). split; [reflexivity|]. exists pre, n, post, o.
    split; [|split; assumption]. destruct (anp_names s p (Ginv_good s H)) as (ns & Hn & Ea).
    assert (Hc2 : path_components (f_cfg s) (anp s p) = ns).
    { rewrite Ea. apply (path_components_clean (f_cfg s) (gi_lin s H)). eapply Forall_impl; [|exact Hn]. intros w (Hw1 & _ & _ & Hw2). split; assumption. }
    rewrite Hc in Hc2. rewrite Hc2. apply anp_names_of; [apply Ginv_good, H| |exact Hn|exact Ea]. intros ->. discriminate Ep. }
  apply (es_weaken (okerr b)); [intros e K; left; exact K|].
  apply es_catch. intros e Ee.
  assert (K : okerr b e).
  { apply (es_bind (okerr b) (create_dir _ _) (fun _ => ret tt) s) in Ee; [exact Ee|apply es_create_dir, HI|intros; es]. }
  match goal with |- errs _ _ ?s1 => assert (I1 : II b s1) end.
  { assert (Es : forall A B (mm : M A) (f : A -> B) s0, snd ((mm ;;; ret tt) s0) = snd (mm s0)).
    { intros A B mm f s0. unfold bind, ret. destruct (mm s0) as [[]]; reflexivity. }
    rewrite (Es _ _ _ (fun x => x)). apply II_create_dir; [exact HI|]. intros Hb. apply ldiff_small, Hm, Hb. }
  destruct e as [en| | | | | | | | | |]; try (es; exact K).
  destruct en; try solve [es]; (destruct eo; cbn [negb]; [es|es]); try solve [destruct (negb (is_dirobj _ _)); es].
Qed.
Lemma es_mknod b p m d s : II b s -> (b = true -> file_mode m) -> errs (okerr b) (mknod p m d) s.
Proof.
  intros HI Hm. assert (H := proj1 (proj1 HI)). unfold mknod. es. rewrite (Ginv_win s H). es. destruct (_ || _); [es|]. cbv zeta.
  destruct (str_eqb (snd _) []).
  { es. }
  destruct (_ || _); [es|]. es. destruct x; es. apply es_bind; [intros e [=]|]. intros o Eo. apply es_add_object.
  unfold new_file. apply II_alloc; [exact HI|right; eexists; reflexivity|discriminate|]. intros Hb.
  eapply H_weaken; [|apply (new_file_H True [] None _ _ s lts_nil (file_mode_ldiff _ _ (Hm Hb)) (proj2 HI Hb))]. intros z [].
Qed.

(** ** Removing *)
Lemma es_broken b p s : II b s -> errs (okerr b) (handle_broken_link p) s.
Proof. intros HI. unfold handle_broken_link. es. destruct x; es. destruct x; cbn [negb]; es. Qed.
Lemma broken_snd p s : snd (handle_broken_link p s) = s.
Proof.
  unfold handle_broken_link, bind, gets, lift, raise_os, raise, ret. destruct (islink s p) as [[|]|]; try reflexivity.
  destruct (exists_ s p false) as [[|]|]; reflexivity.
Qed.
Lemma es_remove b p s : II b s -> errs (okerr b) (OpsModel.remove p) s.
Proof.
  intros HI. unfold OpsModel.remove. es.
  apply es_bind; [apply es_when; intros _; apply es_broken, HI|]. intros [] _.
  assert (Es : snd (when (ends_with_path_separator (f_cfg s) p) (handle_broken_link (anp s p)) s) = s).
  { destruct (ends_with_path_separator _ _); [apply broken_snd|reflexivity]. }
  rewrite Es. es. destruct x; es; try (apply es_remove_object', HI).
  destruct (S_ISDIR _); es; [|apply es_remove_object', HI].
  destruct (negb _); [es|]. destruct (ends_with_char _ _); es. apply es_remove_object', HI.
Qed.
Lemma es_rmdir b p a s : II b s -> errs (okerr b) (rmdir p a) s.
Proof.
  intros HI. unfold rmdir. es. destruct (str_eqb p dot); [es|]. es. cbv zeta. es. rewrite (Ginv_win s (proj1 (proj1 HI))). es.
  destruct (_ && _); [es|]. destruct (_ && _); [es|]. es. destruct (truthy_contents _ _); [es|]. apply es_remove_object', HI.
Qed.
Lemma II_rmdir b p a s : II b s -> II b (snd (rmdir p a s)).
Proof. intros HI. apply II_pres; [apply rmdir_GP| |exact HI]. intros _. apply rmdir_H. Qed.
Lemma rmdir_cfg s p a : Ginv s -> f_cfg (snd (rmdir p a s)) = f_cfg s.
Proof.
  intros H. set (P := fun s' => Ginv s' /\ f_cfg s' = f_cfg s).
  assert (K : preserves P (rmdir p a)).
  { unfold rmdir. pres. intros s0 [G0 E0]. destruct (remove_object_inv s0 x0 G0) as [G1 S1]. split; [exact G1|].
    rewrite (shrunk_cfg _ _ S1). exact E0. }
  apply (K s). split; [exact H|reflexivity].
Qed.
Lemma abs_path_long sp names : Forall (ordinary sp) names -> length names <= length (abs_path sp names).
Proof.
  intros H. unfold abs_path. cbn [length]. apply le_S. induction H as [|x l Hx Hl IH]; [apply Nat.le_0_l|].
  assert (1 <= length x) by (destruct Hx as [Hx _]; destruct x; [destruct (Hx eq_refl)|cbn; lia]).
  destruct l as [|y l]; [cbn; lia|].
  change (join_with [sp] (x :: y :: l)) with (x ++ sp :: join_with [sp] (y :: l)). rewrite app_length. cbn [length] in *. lia.
Qed.
Lemma es_removedirs_loop b n : forall s pre t, II b s -> Forall (ordinary (sepc s)) pre -> length pre < n ->
  errs (okerr b) (removedirs_loop n (abs_path (sepc s) pre) t) s.
Proof.
  induction n as [|n IH]; intros s pre t HI Hp Hlt; [lia|]. cbn [removedirs_loop].
  destruct (_ && _); [|es]. es. destruct (truthy_contents _ _); [es|].
  apply es_bind; [apply es_rmdir, HI|]. intros [] _. es. cbv zeta.
  set (s1 := snd (rmdir (abs_path (sepc s) pre) true s)).
  assert (I1 : II b s1) by (apply II_rmdir, HI).
  assert (Ec : f_cfg s1 = f_cfg s).
  { apply rmdir_cfg, (proj1 (proj1 HI)). }
  assert (H := proj1 (proj1 HI)). rewrite Ec.
  destruct (names_cases pre) as [->|(pre' & m & ->)].
  - change (abs_path (sepc s) []) with [sepc s]. rewrite (splitpath_root (f_cfg s) (linux_like_posix _ (gi_lin s H))). cbn [fst snd].
    destruct n; exact (es_end _ tt _).
  - rewrite (splitpath_abs_path _ (linux_like_posix _ (gi_lin s H)) _ _ Hp). cbn [fst snd]. rewrite <- Ec. apply IH.
    + exact I1.
    + rewrite Ec. apply (ordinary_last _ _ _ Hp).
    + rewrite app_length in Hlt. cbn in Hlt. lia.
Qed.
Lemma es_removedirs b p s : II b s -> errs (okerr b) (removedirs p) s.
Proof.
  intros HI. assert (H := proj1 (proj1 HI)). unfold removedirs. es. destruct (truthy_contents _ _); [es|].
  apply es_bind; [apply es_rmdir, HI|]. intros [] _. cbv zeta.
  set (s1 := snd (rmdir (anp s p) false s)).
  assert (I1 : II b s1) by (apply II_rmdir, HI).
  assert (Ec : f_cfg s1 = f_cfg s).
  { apply rmdir_cfg, H. }
  destruct (anp_names s p (Ginv_good s H)) as (names & Hn & En). rewrite En.
  destruct (names_cases names) as [->|(pre & m & ->)].
  - change (abs_path (sepc s) []) with [sepc s]. rewrite (splitpath_root (f_cfg s) (linux_like_posix _ (gi_lin s H))). cbn [fst snd nonempty]. rewrite (splitpath_root (f_cfg s) (linux_like_posix _ (gi_lin s H))). cbn [fst snd].
    exact (es_end _ tt _).
  - rewrite (splitpath_abs_path _ (linux_like_posix _ (gi_lin s H)) _ _ Hn). cbn [fst snd].
    assert (Hm : nonempty m = true) by (destruct (ordinary_last _ _ _ Hn) as [_ [Hm _]]; destruct m; [destruct (Hm eq_refl)|reflexivity]).
    rewrite Hm. cbn [fst snd].
    pose proof (abs_path_long _ _ Hn) as Hlen. rewrite app_length in Hlen. cbn [length] in Hlen.
    rewrite <- Ec. apply es_removedirs_loop; [exact I1|rewrite Ec; apply (ordinary_last _ _ _ Hn)|rewrite Ec; lia].
Qed.

(** ** Renaming *)
Lemma has_parent_fin s o x k : pfin s x k -> forall fuel, k <= fuel -> has_parent_n fuel s x o <> Err RecErr.
Proof.
  induction 1 as [x Hx|x p k Hx _ IH]; intros fuel Hk; destruct fuel as [|fuel]; try lia; cbn [has_parent_n]; rewrite Hx;
    destruct (Nat.eqb x o); try discriminate. apply IH. lia.
Qed.
Lemma has_parent_other s o e : forall fuel x, has_parent_n fuel s x o = Err e -> e = RecErr.
Proof.
  induction fuel as [|fuel IH]; intros x; cbn [has_parent_n]; destruct (Nat.eqb x o); try discriminate; destruct (o_parent (ob s x)); try discriminate.
  - intros [= <-]. reflexivity.
  - apply IH.
Qed.
Lemma ok_has_parent b s x o e : II b s -> (b = true -> is_dirobj s x = true) -> has_parent_object s x o = Err e -> okerr b e.
Proof.
  intros [[H P] _] Hd. unfold has_parent_object. destruct (is_dirobj s x) eqn:E.
  - intros K. destruct (pi_fin s P x E) as [k Hk]. assert (Hlt := pfin_bound s x k H P Hk E).
    assert (He := has_parent_other _ _ _ _ _ K). subst e. destruct (has_parent_fin s o x k Hk (S (f_next s)) ltac:(lia) K).
  - intros [= <-]. destruct b; [discriminate (Hd eq_refl)|]. right. split; [reflexivity|discriminate].
Qed.
Lemma es_remove_entry s d n r x : Ginv s -> entry s d n = Some x -> errs os_only (remove_entry d n r) s.
Proof.
  intros H Hx e Ee. destruct (wp_remove_entry d n r s H) as [_ W]. rewrite Ee in W. destruct W as (_ & _ & W). rewrite Hx in W.
  destruct W as [-> | ->]; os.
Qed.
Lemma es_rename_move b old new oldo s (E : exn -> Prop) : II b s -> (forall e, okerr b e -> E e) ->
  (forall d e ndo, resolve s (fst (splitpath (f_cfg s) old)) true = Ok d ->
     resolve s (fst (splitpath (f_cfg s) new)) true = Ok ndo -> has_parent_object s ndo oldo = Ok false ->
     get_entry s d (snd (splitpath (f_cfg s) old)) = Err e -> E e) ->
  errs E (rename_move old new oldo) s.
Proof.
  intros HI HE Hold. assert (H := proj1 (proj1 HI)). unfold rename_move. es1. cbv zeta.
  es1; [apply HE; look|]. destruct x; cbn [negb]; [|es1; apply HE; os].
  es1; [apply HE; look|]. rename x into odo, Hx0 into Eo. es1; [apply HE; look|]. rename x into ndo, Hx0 into En.
  es1. destruct (opt_nat_eqb _ _); cbn [negb]; [|es1; apply HE; os]. es1.
  destruct (S_ISDIR (o_mode (ob s ndo))) eqn:Ed; cbn [negb]; [|es1; apply HE; os].
  assert (Hnd : b = true -> is_dirobj s ndo = true) by (intros Hb; rewrite <- (II_dirs b s HI Hb ndo); exact Ed).
  es1; [apply HE, (ok_has_parent b s ndo oldo _ HI Hnd He)|]. destruct x; [es1; apply HE; os|].
  destruct (has_parent_false s ndo oldo H Hx0) as [Hnd' _].
  es1; [apply (Hold odo e ndo Eo En Hx0 He)|]. rename x into o. apply (get_entry_ok s _ _ _ (Ginv_cs s H)) in Hx1.
  destruct (gi_ent s H _ _ _ (entry_In _ _ _ _ Hx1)) as (_ & Hor & _).
  apply es_bind; [apply (es_weaken os_only); [intros e K; apply HE, os_ok, K|apply (es_remove_entry _ _ _ _ _ H Hx1)]|].
  intros [] Er. destruct (wp_remove_entry odo (snd (splitpath (f_cfg s) old)) false s H) as [HP1 W]. rewrite Er in W.
  destruct W as (x' & Hx' & Hd1 & Hoth1). assert (x' = o) by congruence. subst x'. clear Hx'.
  set (s1 := snd (remove_entry odo (snd (splitpath (f_cfg s) old)) false s)) in *. destruct HP1 as [H1 HS1 _].
  assert (Href1 : is_dirobj s1 o = true -> refs s1 o = 0).
  { intros Hd. rewrite (sh_dir _ _ HS1) in Hd. apply (refs_zero_iff s1 o H1). intros d m K.
    assert (K' := sh_ent _ _ HS1 _ _ _ K). destruct (dir_one_name s _ _ _ _ o H Hd Hx1 K') as [<- <-].
    unfold entry in K. rewrite Hd1 in K. change (entry s1 odo (snd (splitpath (f_cfg s) old)) = Some o) in K || idtac.
    assert (Z := entry_del s s1 odo _ (gi_nodup s H odo) Hd1 (snd (splitpath (f_cfg s) old))). rewrite str_eqb_refl in Z.
    unfold entry in Z. rewrite Hd1 in Z. congruence. }
  es1. set (s2 := mod_ob s1 o _). assert (H2 : Ginv s2) by (apply Ginv_rename_detached; assumption).
  assert (D2 : forall x, is_dirobj s2 x = is_dirobj s1 x).
  { intros x. unfold is_dirobj, s2. rewrite ob_mod. destruct (Nat.eqb x o) eqn:Ex; [apply Nat.eqb_eq in Ex; subst x|]; reflexivity. }
  es1. rewrite (normalized_entryname_cs s2 ndo _ (Ginv_cs s2 H2)). es1.
  match goal with |- context [assoc ?nn (ents s2 ndo)] => change (assoc nn (ents s2 ndo)) with (entry s2 ndo nn); set (n2 := nn) in * end.
  apply es_bind.
  - apply es_when. intros Hw. destruct (entry s2 ndo n2) as [y|] eqn:Ey; [|discriminate].
    apply (es_weaken os_only); [intros e K; apply HE, os_ok, K|apply (es_remove_entry _ _ _ _ _ H2 Ey)].
  - intros [] _. apply (es_weaken (okerr b)); [exact HE|]. apply es_add_entry. intros Hb.
    destruct (entry s2 ndo n2) as [y|]; cbn [when].
    + rewrite (sh_dir _ _ (rp_shrunk _ _ _ _ (proj1 (wp_remove_entry ndo n2 true s2 H2)))), D2, (sh_dir _ _ HS1). exact Hnd'.
    + cbn [snd ret]. rewrite D2, (sh_dir _ _ HS1). exact Hnd'.
Qed.
Lemma es_rename_same b new old s : II b s -> errs (okerr b) (rename_same_object new old) s.
Proof.
  intros HI. unfold rename_same_object. es. destruct (str_eqb (lower old) (lower new)); [es|]. apply es_catch.
  intros e Ee. 
  match type of Ee with fst (?m s) = _ => assert (K : errs (okerr b) m s) end.
  { es. 
    assert (Hrest : forall dr, errs (okerr b) (if dr : bool then
       let pf := splitpath (f_cfg s) new in
       op <- gets (fun s => original_path s (fst pf)) ;;
       match joinpaths (f_cfg s) [op; snd pf] with
       | Some j => ret (Some j)
       | None => raise AssertErr
       end
     else ret None) s).
    { intros [|]; cbv zeta; es. rewrite (joinpaths_two _ (linux_like_posix _ (gi_lin s (proj1 (proj1 HI)))) (linux_like_abs _ (gi_lin s (proj1 (proj1 HI))))). es. }
    destruct (_ && _); es; apply Hrest. }
  specialize (K e Ee). destruct e; es; exact K.
Qed.
Lemma es_dir_links b new old ews s : II b s -> errs (okerr b) (posix_dir_link_errors new old ews) s.
Proof.
  intros HI. unfold posix_dir_link_errors. es.
  assert (Hrest : errs (okerr b) (d2 <- lift (fun s => isdir s new false) ;;
    l2 <- (if d2 : bool then lift (fun s => islink s old) else ret false) ;;
    if l2 : bool then
      if ews && c_mac (f_cfg s) then ret tt
      else raise_os (if ews then ENOTDIR else EISDIR)
    else
      l3 <- (if ews then lift (fun s => islink s old) else ret false) ;;
      if ews && l3 && str_eqb old new && negb (c_win (f_cfg s)) then raise_os ENOTDIR else ret tt) s).
  { es. assert (H3 : forall l2, errs (okerr b) (if l2 : bool then
      if ews && c_mac (f_cfg s) then ret tt
      else raise_os (if ews then ENOTDIR else EISDIR)
    else
      l3 <- (if ews then lift (fun s => islink s old) else ret false) ;;
      if ews && l3 && str_eqb old new && negb (c_win (f_cfg s)) then raise_os ENOTDIR else ret tt) s).
    { intros [|]; [destruct (_ && _); es|]. destruct ews; es; destruct (_ && _); es. }
    destruct x0; [es; apply H3|es1; apply (H3 false)]. }
  destruct x; [es; destruct x; [es|apply Hrest]|es1; apply Hrest].
Qed.
Lemma dir_links_snd new old ews s : snd (posix_dir_link_errors new old ews s) = s.
Proof.
  unfold posix_dir_link_errors, bind, gets, lift, ret, raise_os, raise. cbn [fst snd].
  destruct (isdir s old false) as [[|]|]; cbn [fst snd]; try reflexivity.
  - destruct (islink s new) as [[|]|]; cbn [fst snd]; try reflexivity.
    destruct (isdir s new false) as [[|]|]; cbn [fst snd]; try reflexivity.
    + destruct (islink s old) as [[|]|]; cbn [fst snd]; try reflexivity; destruct ews; cbn [fst snd andb]; try reflexivity;
        try (destruct (c_mac _); reflexivity). destruct (islink s old) as [l|]; cbn [fst snd]; try reflexivity. destruct (_ && _); reflexivity.
    + destruct ews; cbn [fst snd andb]; try reflexivity. destruct (islink s old) as [l|]; cbn [fst snd]; try reflexivity. destruct (_ && _); reflexivity.
  - destruct (isdir s new false) as [[|]|]; cbn [fst snd]; try reflexivity.
    + destruct (islink s old) as [[|]|]; cbn [fst snd]; try reflexivity; destruct ews; cbn [fst snd andb]; try reflexivity;
        try (destruct (c_mac _); reflexivity). destruct (islink s old) as [l|]; cbn [fst snd]; try reflexivity. destruct (_ && _); reflexivity.
    + destruct ews; cbn [fst snd andb]; try reflexivity. destruct (islink s old) as [l|]; cbn [fst snd]; try reflexivity. destruct (_ && _); reflexivity.
Qed.
Lemma es_to_existing b force new old oldo ews s : II b s -> errs (okerr b) (rename_to_existing force new old oldo ews) s.
Proof.
  intros HI. assert (H := proj1 (proj1 HI)). unfold rename_to_existing. es. destruct (str_eqb old new); [destruct (_ && _); es|].
  destruct (Nat.eqb oldo x); [apply es_rename_same, HI|].
  destruct (_ || _).
  - apply es_bind; [|intros [] _; es]. unfold rename_error_for_dir_or_link. es. rewrite (Ginv_win s H). es.
    destruct (S_ISLNK _); es. destruct (_ && _); [es|]. es. destruct (S_ISREG _); es.
  - destruct (S_ISDIR _); [es|]. destruct (_ && _); [es|]. apply es_bind; [apply es_remove_object', HI|]. intros [] _. es.
Qed.
Lemma II_to_existing b force new old oldo ews s : II b s -> II b (snd (rename_to_existing force new old oldo ews s)).
Proof.
  intros HI. pose proof (rename_to_existing_pass s force new old oldo ews) as W. unfold wp in W. destruct W as [-> | ->]; [exact HI|].
  apply II_pres; [apply remove_object_GP|intros _; apply remove_object_H|exact HI].
Qed.
Lemma es_rename b oldp newp force s : II b s ->
  errs (fun e => okerr b e \/ ((e = KeyErr \/ e = AttrErr) /\ exists_ s (anp s newp) true = Ok true)) (rename oldp newp force) s.
Proof.
  intros HI. assert (H := proj1 (proj1 HI)). unfold rename. es1. cbv zeta. es1. es1.
  es1; [left; look|]. destruct x; cbn [negb]; [|es1; left; os].
  apply es_bind; [apply es_when; intros _; apply (es_weaken (okerr b)); [intros; left; assumption|apply es_broken, HI]|].
  intros [] _.
  assert (Es : snd (when (ends_with_path_separator (f_cfg s) oldp) (handle_broken_link (anp s oldp)) s) = s).
  { destruct (ends_with_path_separator _ _); [apply broken_snd|reflexivity]. }
  rewrite Es. clear Es. es1; [left; look|]. rename x into oldo, Hx0 into Eold.
  apply es_bind; [apply es_when; intros _; apply (es_weaken (okerr b)); [intros; left; assumption|apply es_dir_links, HI]|].
  intros [] _. rewrite (Ginv_win s H). cbn [negb when]. rewrite dir_links_snd.
  es1; [left; look|].
  destruct (anp_names s oldp (Ginv_good s H)) as (on & Hon & Eon). rewrite Eon in *.
  destruct x.
  - (* something is there *)
    apply es_bind; [apply (es_weaken (okerr b)); [intros; left; assumption|apply es_to_existing, HI]|].
    intros new' _. set (s1 := snd _). assert (I1 : II b s1) by (apply II_to_existing, HI).
    destruct new' as [[|c0 q]|]; try es1. apply (es_rename_move b); [exact I1|intros; left; assumption|].
    intros d e ndo _ _ _ K. right. split; [|exact Hx0]. revert K. unfold get_entry. destruct (o_body _); [destruct (assoc _ _); [discriminate|]|]; intros [= <-]; auto.
  - es1. assert (Hgo : errs (fun e => okerr b e \/ ((e = KeyErr \/ e = AttrErr) /\ exists_ s (anp s newp) true = Ok true))
      (rename_move (abs_path (sepc s) on) (anp s newp) oldo) s).
    { apply (es_rename_move b); [exact HI|intros; left; assumption|].
      intros d e ndo Ed End Ehp Eg. exfalso. destruct (names_cases on) as [->|(pre & m & ->)].
      - change (abs_path (sepc s) []) with [sepc s] in *.
        assert (oldo = root_oid).
        { revert Eold. unfold lresolve, lresolve_. cbn [str_eqb andb]. rewrite Ascii.eqb_refl. cbn. intros [= <-]. reflexivity. }
        subst oldo. destruct (has_parent_false s ndo root_oid H Ehp) as [Hnd Hr]. apply Hr.
        destruct (resolve_found s _ _ _ H End) as [->|[nm Hnm]].
        + rewrite (gi_null s H) in Hnd. discriminate.
        + exists nm. exact Hnm.
      - rewrite (splitpath_abs_path _ (linux_like_posix _ (gi_lin s H)) _ _ Hon) in Ed, Eg. cbn [fst snd] in Ed, Eg.
        destruct (lresolve_reach s pre m oldo H Hon Eold) as (d' & Ed' & Hdir & _ & Hent & _).
        assert (d' = d) by congruence. subst d'. revert Eg. unfold get_entry.
        rewrite (normalized_entryname_cs s d m (Ginv_cs s H)). unfold entry, ents in Hent. destruct (o_body (ob s d)); [rewrite Hent; discriminate|discriminate]. }
    destruct (anp s newp) as [|c0 q]; [es1|exact Hgo].
Qed.

(** ** Attributes, mounts *)
Lemma ok_fd s fd e : fd_object s fd = Err e -> okerr false e.
Proof.
  unfold fd_object, get_open_file. destruct (_ <=? _)%Z; cbn [rbind os_err]; [intros [= <-]; os|].
  destruct (py_index _ _) as [[[|w l]|]|]; cbn [rbind os_err]; try (intros [= <-]; first [os|right; split; [reflexivity|discriminate]]).
  destruct (w_kind _); try discriminate; intros [= <-]; right; (split; [reflexivity|discriminate]).
Qed.
Definition is_path (a : parg) : Prop := match a with PStr _ => True | PFd _ => False end.
Lemma ok_arg b s a f c e : II b s -> (b = true -> is_path a) -> resolve_arg s a f c = Err e -> okerr b e.
Proof.
  intros HI Ha. unfold resolve_arg. destruct a as [p|fd]; [apply (ok_follow b s HI)|].
  intros K. assert (K' := ok_fd s fd e K). destruct b; [destruct (Ha eq_refl)|exact K'].
Qed.
Lemma es_chmod b a m f s : II b s -> (b = true -> is_path a) -> errs (okerr b) (chmod a m f) s.
Proof. intros HI Ha. unfold chmod. es. apply (ok_arg b s a f true e HI Ha He). Qed.
Lemma es_lchmod b p m s : II b s -> errs (okerr b) (lchmod p m) s.
Proof. intros HI. unfold lchmod. es. rewrite (Ginv_win s (proj1 (proj1 HI))). apply es_chmod; [exact HI|]. intros _. exact Logic.I. Qed.
Lemma es_chown b a u g f s : II b s -> (b = true -> is_path a) -> errs (okerr b) (chown a u g f) s.
Proof. intros HI Ha. unfold chown. es. apply (ok_arg b s a f true e HI Ha He). Qed.
Definition fine_times (times ns : option (list Z)) : Prop :=
  (times = None \/ ns = None) /\ (forall l, times = Some l -> length l = 2) /\ (forall l, ns = Some l -> length l = 2).
Lemma es_utime b a t n f s : II b s -> (b = true -> is_path a /\ fine_times t n) -> errs (okerr b) (utime a t n f) s.
Proof.
  intros HI Ha.
  assert (Hbad : forall e, (b = true -> ~ fine_times t n) -> e <> RecErr -> okerr b e).
  { intros e K He. destruct b; [destruct (K eq_refl (proj2 (Ha eq_refl)))|]. right. split; [reflexivity|exact He]. }
  assert (Hr : errs (okerr b) (
      if match t with Some l => negb (Nat.eqb (length l) 2) | None => false end then raise TypeErr
      else if match n with Some l => negb (Nat.eqb (length l) 2) | None => false end then raise TypeErr
      else
        o <- lift (fun s => resolve_arg s a f true) ;;
        now <- gets f_now ;;
        let at_mt := match t, n with
                     | Some (t0 :: t1 :: _), _ => (t0 * 1000000000, t1 * 1000000000)%Z
                     | _, Some (n0 :: n1 :: _) => (n0, n1)
                     | _, _ => (now, now)
                     end in
        mod_obj o (fun x => wo_mtime (wo_atime x (fst at_mt)) (snd at_mt))) s).
  { destruct (match t with Some l => _ | None => _ end) eqn:E1.
    { es. apply Hbad; [|discriminate]. intros _ (_ & K & _). destruct t as [l|]; [|discriminate]. rewrite (K l eq_refl) in E1. discriminate. }
    destruct (match n with Some l => _ | None => _ end) eqn:E2.
    { es. apply Hbad; [|discriminate]. intros _ (_ & _ & K). destruct n as [l|]; [|discriminate]. rewrite (K l eq_refl) in E2. discriminate. }
    es; [apply (ok_arg b s a f true e HI (fun Hb => proj1 (Ha Hb)) He)|cbv zeta; es]. }
  unfold utime. destruct t as [lt|], n as [ln|]; try exact Hr. es. apply Hbad; [|discriminate]. intros _ ([K|K] & _); discriminate.
Qed.
Lemma linux_is s : Ginv s -> is_linux (f_cfg s) = true.
Proof. intros H. unfold is_linux. rewrite (Ginv_win s H), (Ginv_mac s H). reflexivity. Qed.
Lemma es_rmxattr b a k f s : II b s -> (b = true -> is_path a) -> errs (okerr b) (removexattr a k f) s.
Proof. intros HI Ha. unfold removexattr. es. rewrite (linux_is s (proj1 (proj1 HI))). cbn [negb]. es. apply (ok_arg b s a f true e HI Ha He). Qed.
Lemma es_setxattr b a k v fl f s : II b s -> (b = true -> is_path a) -> errs (okerr b) (setxattr a k v fl f) s.
Proof.
  intros HI Ha. unfold setxattr. es. rewrite (linux_is s (proj1 (proj1 HI))). cbn [negb]. es.
  - apply (ok_arg b s a f true e HI Ha He).
  - destruct (_ && _); [es|]. destruct (_ && _); es.
Qed.
Lemma es_chdir b a s : II b s -> (b = true -> is_path a) -> errs (okerr b) (chdir a) s.
Proof.
  intros HI Ha. assert (H := proj1 (proj1 HI)). unfold chdir. es. rewrite (Ginv_mac s H).
  apply es_bind.
  - apply es_catch. intros e Ee. unfold lift in Ee. cbn [fst] in Ee.
    assert (K : okerr b e).
    { destruct a as [p|fd]; cbn [resolve_path_arg] in Ee; [look|].
      destruct b; [destruct (Ha eq_refl)|]. destruct (fd_object s fd) as [o|e'] eqn:Ef; cbn [rbind] in Ee.
      - destruct (obj_path_ok s o H (proj2 (proj1 HI))) as [q Hq]. rewrite Hq in Ee. discriminate.
      - injection Ee as <-. apply (ok_fd _ _ _ Ef). }
    destruct e as [[]| | | | | | | | | |]; es; exact K.
  - intros p Hp.
    assert (Es : snd (catch (lift (fun s => resolve_path_arg s a)) (fun e => match e with OSErr EBADF => if false then raise_os ENOTDIR else raise e | _ => raise e end) s) = s).
    { unfold catch, lift. destruct (resolve_path_arg s a) as [|[[]| | | | | | | | | |]]; reflexivity. }
    cbv iota in Es |- *. rewrite Es. es. destruct (_ && _); es.
Qed.
Lemma es_truncate b a n s : II b s -> (b = true -> is_path a) ->
  errs (fun e => okerr b e \/ (e = AttrErr /\ exists o, resolve_arg s a true true = Ok o /\ is_dirobj s o = true)) (os_truncate a n) s.
Proof.
  intros HI Ha. unfold os_truncate. es1; [left; apply (ok_arg b s a true true e HI Ha He)|].
  destruct (is_dirobj s x) eqn:E.
  - intros e K. unfold set_size, bind, gets in K. cbn [fst snd] in K. unfold is_dirobj in E. destruct (o_body (ob s x)) eqn:Eb; [|discriminate].
    cbn in K. injection K as <-. right. split; [reflexivity|]. exists x. split; [exact Hx|]. unfold is_dirobj. rewrite Eb. reflexivity.
  - apply (es_weaken os_only); [intros e K; left; apply os_ok, K|apply es_set_size, E].
Qed.
Lemma es_add_mount b p t s : II b s -> (b = true -> t = None) -> errs (okerr b) (add_mount_point p t) s.
Proof.
  intros HI Ht. unfold add_mount_point, add_mount_point_. es. destruct (assoc _ _); [es|]. es.
  set (s1 := set_mounts _ _). 
  assert (I1 : II b s1).
  { destruct HI as [[HG HP] HH].
    assert (G : gsame s s1) by (constructor; intros; first [reflexivity|assumption]).
    split; [split; [apply (gsame_Ginv s s1 G HG)|apply (Pinv_gsame s s1 G HP)]|]. intros Hb. unfold s1. apply H_mounts.
    - intros _ k m Hin. apply in_app_or in Hin. destruct Hin as [Hin|[[= <- <-]|[]]]; [|apply Ht, Hb].
      apply (hs_lim _ _ _ _ (HH Hb) Logic.I k m Hin).
    - refine (H_frame True [] None (fun s0 => set_dev s0 (S (f_dev s0))) _ s (HH Hb)). intros s0. repeat split; reflexivity. }
  clearbody s1. destruct (str_eqb _ _).
  - es.
  - apply es_bind; [apply es_create_dir, I1|]. intros o _. es.
Qed.

(** ** Files: nothing recursive *)
Definition fin_err (e : exn) : Prop := e <> RecErr.
Definition nrec {A} (m : M A) : Prop := forall s, errs fin_err m s.
Lemma nr_bind {A B} (m : M A) (k : A -> M B) : nrec m -> (forall x, nrec (k x)) -> nrec (bind m k).
Proof. intros H K s. apply es_bind; [apply H|]. intros x _. apply K. Qed.
Lemma nr_gets {A} (f : fs -> A) : nrec (gets f). Proof. intros s. apply es_endg. Qed.
Lemma nr_ret {A} (a : A) : nrec (ret a). Proof. intros s. apply es_end. Qed.
Lemma nr_modify f : nrec (modify f). Proof. intros s. apply es_endm. Qed.
Lemma nr_raise {A} e : e <> RecErr -> nrec (@raise A e). Proof. intros H s. apply es_raise, H. Qed.
Lemma nr_raise_os {A} e : nrec (@raise_os A e). Proof. apply nr_raise. discriminate. Qed.
Lemma nr_catch {A} (m : M A) h : nrec m -> (forall e, e <> RecErr -> nrec (h e)) -> nrec (catch m h).
Proof. intros H K s. apply es_catch. intros e Ee. apply (K e (H s e Ee)). Qed.
Lemma nr_when b m : nrec m -> nrec (when b m). Proof. intros H s. apply es_when. intros _. apply H. Qed.
Lemma nr_cdu d v : nrec (change_disk_usage d v).
Proof. intros s. apply (es_weaken os_only); [intros e [x ->]; discriminate|apply es_cdu]. Qed.
Lemma nr_awrap x : nrec (alloc_wrap x). Proof. intros s e [=]. Qed.
Lemma nr_aopen w : nrec (add_open_file w).
Proof. intros s e. unfold add_open_file. destruct (f_free s); discriminate. Qed.
Ltac nr1 := lazymatch goal with
  | |- nrec (bind _ _) => apply nr_bind; [|intros ?; cbv beta]
  | |- nrec (gets _) => apply nr_gets
  | |- nrec (wget _) => apply nr_gets
  | |- nrec (ret _) => apply nr_ret
  | |- nrec (modify _) => apply nr_modify
  | |- nrec (wmod _ _) => apply nr_modify
  | |- nrec (mod_obj _ _) => apply nr_modify
  | |- nrec (close_open_file _) => apply nr_modify
  | |- nrec (raise_os _) => apply nr_raise_os
  | |- nrec (raise _) => apply nr_raise; first [discriminate|assumption]
  | |- nrec (catch _ _) => apply nr_catch; [|intros ? ?; cbv beta]
  | |- nrec (when _ _) => apply nr_when
  | |- nrec (change_disk_usage _ _) => apply nr_cdu
  | |- nrec (alloc_wrap _) => apply nr_awrap
  | |- nrec (add_open_file _) => apply nr_aopen
  | |- nrec (if ?c then _ else _) => destruct c
  | |- nrec (match ?x with _ => _ end) => destruct x
  | |- nrec (let _ := _ in _) => cbv zeta
  end.
Ltac nr := repeat nr1.
Lemma nr_bseek w o h : nrec (bseek w o h). Proof. unfold bseek. nr. Qed.
Lemma nr_bwrite w d : nrec (bwrite w d). Proof. unfold bwrite. nr. Qed.
Lemma nr_bhere w : nrec (btrunc_here w). Proof. unfold btrunc_here. nr. Qed.
Lemma nr_stream w c : nrec (set_stream_contents w c). Proof. unfold set_stream_contents. nr. Qed.
Lemma nr_sync w : nrec (sync_io w). Proof. unfold sync_io. nr. apply nr_stream. Qed.
Lemma nr_each l f : (forall w, nrec (f w)) -> nrec (for_each l f).
Proof. intros H. induction l; cbn [for_each]; nr; [apply H|exact IHl]. Qed.
Lemma nr_size o n : nrec (set_size o n). Proof. unfold set_size. nr. Qed.
Lemma nr_initial o c : nrec (set_initial_contents o c). Proof. unfold set_initial_contents. nr. apply nr_size. Qed.
Lemma nr_contents o c : nrec (set_contents o c). Proof. unfold set_contents. nr. apply nr_initial. Qed.
Lemma nr_check w : nrec (check_open w). Proof. unfold check_open. nr. Qed.
Lemma nr_flush w : nrec (flush w).
Proof. unfold flush, update_flush_pos, flush_related. nr; first [apply nr_check|apply nr_sync|apply nr_stream|apply nr_contents|apply nr_each, nr_sync]. Qed.
Lemma nr_tryflush w p : nrec (try_flush w p).
Proof. unfold try_flush. nr; first [apply nr_flush|apply nr_bseek|apply nr_bhere]. Qed.
Lemma nr_ioraise {A} x : nrec (@io_raise A x). Proof. unfold io_raise. nr. Qed.
Lemma nr_enter w : nrec (io_enter w). Proof. unfold io_enter. nr. apply nr_check. Qed.
Ltac nrio := first [apply nr_enter|apply nr_ioraise|apply nr_bwrite|apply nr_bseek|apply nr_bhere|apply nr_tryflush|apply nr_flush|apply nr_sync|apply nr_size|apply nr_contents|apply nr_check].
Lemma nr_write w d : nrec (file_write w d). Proof. unfold file_write. nr; nrio. Qed.
Lemma nr_read w n : nrec (file_read w n). Proof. unfold file_read. nr; nrio. Qed.
Lemma nr_seek w o h : nrec (file_seek w o h). Proof. unfold file_seek. nr; nrio. Qed.
Lemma nr_tell w : nrec (file_tell w). Proof. unfold file_tell. nr; nrio. Qed.
Lemma nr_trunc w n : nrec (file_truncate w n).
Proof. unfold file_truncate, adapt_related. nr; try nrio. apply nr_each. intros v. nr. Qed.
Lemma nr_fd fd : nrec (lift (fun s => get_open_file s fd)).
Proof.
  intros s e. unfold lift, get_open_file. cbn [fst]. destruct (_ <=? _)%Z; [intros [= <-]; discriminate|].
  destruct (py_index _ _) as [[[|w l]|]|]; try discriminate; intros [= <-]; discriminate.
Qed.
Lemma nr_osread fd n : nrec (os_read fd n). Proof. unfold os_read. nr; first [apply nr_fd|apply nr_read]. Qed.
Lemma nr_oswrite fd d : nrec (os_write fd d). Proof. unfold os_write, update_flush_pos. nr; first [apply nr_fd|apply nr_write|nrio]. Qed.
Lemma nr_addwrap x : nrec (add_wrap x). Proof. unfold add_wrap. nr. Qed.
Lemma nr_pipe : nrec os_pipe. Proof. unfold os_pipe. nr; apply nr_addwrap. Qed.
Lemma nr_flushw w : nrec (flush_wrapper w). Proof. unfold flush_wrapper. nr. apply nr_flush. Qed.

Lemma nr_ok {A} (m : M A) s : nrec m -> errs (okerr false) m s.
Proof. intros H. apply (es_weaken fin_err); [intros e K; right; split; [reflexivity|exact K]|apply H]. Qed.
Lemma ok_norm b s rp c e : II b s -> get_norm (fun t => resolve s t true) s rp c = Err e -> okerr b e.
Proof.
  intros HI K. assert (Hg := Ginv_good s (proj1 (proj1 HI))). apply ok_look.
  - revert K. unfold get_norm. destruct (str_eqb _ _); [discriminate|]. destruct (str_eqb _ _); [discriminate|].
    apply norm_walk_exn; [|exact Hg]. intros t e'. apply (resolve_exn_ok s Hg _ _ _ _ (exists_top_ok s Hg)).
  - intros Hb ->. revert K. unfold get_norm. destruct (str_eqb _ _); [discriminate|]. destruct (str_eqb _ _); [discriminate|].
    apply (nr_walk s (proj1 (proj1 HI)) (II_links b s HI Hb) (II_dirs b s HI Hb)).
    rewrite (gd_dnl s Hg _ (gd_root s Hg)). discriminate.
Qed.
Lemma es_file_arg b a del s : II b s -> (b = true -> is_path a) -> errs (okerr b) (handle_file_arg a del) s.
Proof.
  intros HI Ha. destruct a as [p|fd]; cbn [handle_file_arg].
  - es. destruct (str_eqb _ _); es. destruct x0; es. apply (ok_norm b s _ _ _ HI He).
  - destruct b; [destruct (Ha eq_refl)|]. apply nr_ok. nr. apply nr_fd.
Qed.
Lemma file_arg_snd a del s : snd (handle_file_arg a del s) = s.
Proof.
  destruct a as [p|fd]; cbn [handle_file_arg]; unfold bind, gets, lift, ret, raise, wget; cbn [fst snd].
  - destruct (str_eqb _ _); [reflexivity|]. destruct (resolve_path s p); [|reflexivity].
    destruct (exists_ s p false) as [[|]|]; cbn [fst snd]; try reflexivity. unfold bind, lift. destruct (get_norm _ _ _ _); reflexivity.
  - destruct (get_open_file s fd); cbn [fst snd]; [|reflexivity]. unfold gets. destruct (w_kind _); reflexivity.
Qed.
Lemma new_mode : file_mode (N.lor S_IFREG PERM_DEF_FILE).
Proof. split; [reflexivity|]. intros K. discriminate K. Qed.
Lemma es_init_file b fo fp rp om s : II b s -> errs (okerr b) (init_file_object fo fp rp om) s.
Proof.
  intros HI. unfold init_file_object. destruct fo as [o|].
  - es. destruct (_ && _); [es|]. destruct (_ && _); es. apply es_bind; [|intros; es]. unfold set_contents. es.
    destruct (is_dirobj s o) eqn:E; [es|]. apply (es_weaken os_only); [apply os_ok|].
    pose proof (es_fill o (Some []) None s E) as K. cbn [fill_file] in K. intros e Ee. apply (K e).
    unfold bind. destruct (set_initial_contents o [] s) as [r s']. cbn [fst] in Ee. subst r. reflexivity.
  - destruct (om_must_exist om); [es|]. es.
    assert (Hc : errs (okerr b) (create_file_internally rp (N.lor S_IFREG PERM_DEF_FILE) (Some []) None false true) s).
    { apply es_create_int; [exact HI|]. intros _. left. intros um0. apply file_mode_ldiff, new_mode. }
    destruct x; es; try (destruct (ends_with_path_separator _ _); [es|exact Hc]).
    destruct (lresolve s fp) as [l|e'] eqn:El; cbn [rbind] in He; [|injection He as <-; look].
    apply ok_attr; [apply (lookup_ok_text s l e He)|]. intros Hb ->.
    assert (Hl : S_ISLNK (o_mode (ob s l)) = true).
    { revert Hx. unfold islink, is_of_type, is_of_type_. change (resolve_any (exists_top s) s fp false true) with (lresolve s fp). rewrite El. cbn [rbind].
      destruct (raise_for_sep_ _ _ _ _ _ _) as [u|[]]; cbn [rbind]; try discriminate. intros [= K]. exact K. }
    destruct (lresolve_text s (proj1 (proj1 HI)) (II_links b s HI Hb) fp l El Hl) as [t Ht]. congruence.
Qed.
Lemma II_init_file b fo fp rp om s : II b s -> II b (snd (init_file_object fo fp rp om s)).
Proof.
  intros HI. apply II_pres; [apply init_file_object_GP| |exact HI]. intros _. unfold init_file_object. pres.
  - apply set_contents_H.
  - apply create_int_H. left. intros um0. apply file_mode_ldiff, new_mode.
Qed.
Lemma es_open_call b a om bf cf raw del s : II b s -> (b = true -> is_path a) -> errs (okerr b) (open_call a om bf cf raw del) s.
Proof.
  intros HI Ha. unfold open_call. apply es_bind; [apply es_file_arg; assumption|]. intros fa Efa. rewrite file_arg_snd.
  destruct fa as [z|fa].
  { destruct b; [|apply nr_ok, nr_addwrap]. exfalso. destruct a as [p|fd]; [|destruct (Ha eq_refl)]. revert Efa. cbn [handle_file_arg].
    unfold bind, gets, lift, ret. cbn [fst snd]. destruct (str_eqb _ _); [discriminate|]. destruct (resolve_path s p); [|discriminate].
    destruct (exists_ s p false) as [[|]|]; cbn [fst snd]; try discriminate. unfold bind, lift. destruct (get_norm _ _ _ _); discriminate. }
  es. cbv zeta.
  match goal with |- errs _ (bind ?m _) _ => assert (Hd : errs (okerr b) m s /\ snd (m s) = s) end.
  { destruct (om_must_not_exist om); [|split; [es|reflexivity]]. destruct (fa_obj fa); [split; [es|reflexivity]|].
    split; [es|]. unfold bind, lift, ret. destruct (islink s _); reflexivity. }
  destruct Hd as [Hd1 Hd2]. apply es_bind; [exact Hd1|]. intros dup _. rewrite Hd2. destruct dup; [es|].
  apply es_bind; [apply es_init_file, HI|]. intros o _. assert (I1 := II_init_file b (fa_obj fa) (fa_path fa) (fa_real fa) om s HI).
  set (s1 := snd (init_file_object (fa_obj fa) (fa_path fa) (fa_real fa) om s)) in *. clearbody s1.
  es. destruct (S_ISDIR (o_mode (ob s1 o))) eqn:Ed; [es|]. es.
  apply es_bind; [destruct (om_trunc om); es|]. intros [] _.
  match goal with |- errs _ _ (snd (?m s1)) => assert (E1 : b = true -> is_dirobj (snd (m s1)) o = false) end.
  { intros Hb. pose proof (II_dirs b s1 I1 Hb o) as K. unfold is_dirm in K. rewrite Ed in K.
    destruct (om_trunc om); [|symmetry; exact K]. unfold mod_obj, modify. cbn [snd]. unfold is_dirobj. rewrite ob_mod_same.
    symmetry in K. unfold is_dirobj in K. destruct (c_win _); exact K. }
  match goal with |- errs _ _ (snd (?m s1)) => set (s2 := snd (m s1)) in *; clearbody s2 end.
  es. destruct (is_dirobj s2 o).
  { es. destruct b; [discriminate (E1 eq_refl)|]. right. split; [reflexivity|discriminate]. }
  es.
  assert (Hw : forall x s0, errs (okerr b) (add_wrap x) s0).
  { intros x s0 e. unfold add_wrap, bind, alloc_wrap, add_open_file. cbn [fst snd]. destruct (f_free _); discriminate. }
  destruct (fa_fd fa).
  - apply es_bind; [intros e [=]|]. intros w _. es.
  - apply Hw.
Qed.
Lemma es_open b a m bf cf s : II b s -> (b = true -> is_path a /\ (exists om, parse_mode m = Ok om) /\ has_char "b"%char m = true) ->
  errs (okerr b) (open_ a m bf cf) s.
Proof.
  intros HI Ha. unfold open_. destruct (parse_mode m) as [om|e] eqn:Em.
  - destruct (has_char "b"%char m) eqn:Eb.
    + apply es_open_call; [exact HI|]. intros Hb. apply (Ha Hb).
    + es. destruct b; [destruct (Ha eq_refl) as (_ & _ & K); discriminate|]. right. split; [reflexivity|discriminate].
  - es. destruct b; [destruct (Ha eq_refl) as (_ & [om K] & _); discriminate|]. right. split; [reflexivity|].
    intros ->. revert Em. unfold parse_mode. destruct (_ && _); [discriminate|]. destruct (open_mode_map _); discriminate.
Qed.
Ltac hfr := solve [apply H_frame; intros ?; repeat split; reflexivity].
Ltac hmd := solve [apply H_mod; intros ?; cbn; reflexivity].
Lemma open_call_H a om b c r d : preserves (Hst True [] None) (open_call a om b c r d).
Proof.
  assert (Hwr : forall x, preserves (Hst True [] None) (alloc_wrap x)).
  { intros x s Hs. exact (H_frame True [] None (fun s => set_wnext (set_wraps s (upd (f_wraps s) (f_wnext s) x)) (S (f_wnext s)))
      (fun s => conj eq_refl (conj eq_refl eq_refl)) s Hs). }
  assert (Hop : forall w, preserves (Hst True [] None) (add_open_file w)).
  { intros w s Hs. unfold add_open_file. destruct (f_free s) as [|fd h]; cbn [snd].
    - exact (H_frame True [] None (fun s => set_open s (f_open s ++ [Some [w]])) (fun s => conj eq_refl (conj eq_refl eq_refl)) s Hs).
    - exact (H_frame True [] None (fun s => set_free (set_open s (py_set (f_open s) fd (Some [w]))) h) (fun s => conj eq_refl (conj eq_refl eq_refl)) s Hs). }
  assert (Haw : forall x, preserves (Hst True [] None) (add_wrap x)).
  { intros x. unfold add_wrap. pres; first [apply Hwr|apply Hop|hfr]. }
  unfold open_call. pres; try first [apply Haw|apply Hwr|hmd|hfr].
  - unfold handle_file_arg. pres. unfold wget. pres.
  - unfold init_file_object. pres; [apply set_contents_H|]. apply create_int_H. left. intros um0. apply file_mode_ldiff, new_mode.
  - apply H_mod; intros y; destruct (c_win _); reflexivity.
  - apply H_frame. intros s0. destruct (py_index _ _) as [[l|]|]; repeat split; reflexivity.
Qed.
Lemma es_os_open b p fl m u s : II b s ->
  (b = true -> has_bit fl O_EXCL = true -> has_bit fl O_CREAT = true \/ has_bit fl O_TMPFILE = true) -> errs (okerr b) (os_open p fl m u) s.
Proof.
  intros HI Hf. assert (H := proj1 (proj1 HI)). unfold os_open. es. cbv zeta. cbn [om_must_not_exist om_must_exist om_write om_read om_trunc om_append].
  destruct (_ && _) eqn:Eq.
  { es. destruct b; [|right; split; [reflexivity|discriminate]]. exfalso. apply andb_true_iff in Eq. destruct Eq as [E1 E2].
    apply andb_true_iff in E2. destruct E2 as [E2 E3]. destruct (Hf eq_refl E1) as [K|K]; rewrite K in *; discriminate. }
  assert (Hrest : forall p, errs (okerr b) (dirw <- (if c_win (f_cfg s) then ret None else
             e <- lift (fun s => exists_ s p false) ;;
             if e : bool then
               o <- lift (fun s => resolve s p true) ;;
               isd <- gets (fun s => is_dirobj s o) ;;
               if isd : bool then
                 if (negb (negb (has_bit fl O_CREAT) && negb (has_bit fl O_TMPFILE)) && negb (c_mac (f_cfg s))) || has_bit fl (N.lor O_RDWR O_WRONLY)
                 then raise_os EISDIR
                 else w <- add_wrap (mkwrap WDirW o false false false true false false 0 0 false [] 0 0 0 0 0) ;;
                      ret (Some w)
               else ret None
             else ret None) ;;
    match dirw with
    | Some w => x <- wget w ;; ret (w_fd x)
    | None =>
      w <- open_call (PStr p) (mkom (negb (has_bit fl O_CREAT) && negb (has_bit fl O_TMPFILE))
                 (negb (has_bit fl O_WRONLY))
                 (has_bit fl (N.lor O_RDWR O_WRONLY))
                 (has_bit fl O_TRUNC)
                 (has_bit fl O_APPEND)
                 (has_bit fl O_EXCL)) (-1) true true (has_bit fl O_TMPFILE) ;;
      x <- wget w ;;
      (if Nat.eqb (w_obj x) devnull_oid then ret tt else chmod (PStr p) (match m with
              | Some m => m
              | None => if c_win (f_cfg s) then 438%N else N.ldiff PERM_DEF (f_rumask s)
              end) true) ;;;
      y <- wget w ;; ret (w_fd y)
    end) s).
  { intros q. rewrite (Ginv_win s H).
    assert (Hopen : errs (okerr b) (w <- open_call (PStr q) (mkom (negb (has_bit fl O_CREAT) && negb (has_bit fl O_TMPFILE))
                 (negb (has_bit fl O_WRONLY))
                 (has_bit fl (N.lor O_RDWR O_WRONLY))
                 (has_bit fl O_TRUNC)
                 (has_bit fl O_APPEND)
                 (has_bit fl O_EXCL)) (-1) true true (has_bit fl O_TMPFILE) ;;
      x <- wget w ;;
      (if Nat.eqb (w_obj x) devnull_oid then ret tt else chmod (PStr q) (match m with
              | Some m => m
              | None => if false then 438%N else N.ldiff PERM_DEF (f_rumask s)
              end) true) ;;;
      y <- wget w ;; ret (w_fd y)) s).
    { apply es_bind; [apply es_open_call; [exact HI|intros _; exact Logic.I]|]. intros w _. unfold wget. es.
      apply es_bind; [|intros [] _; es]. destruct (Nat.eqb _ _); [es|]. apply es_chmod; [|intros _; exact Logic.I].
      apply II_pres; [apply open_call_GP|intros _; apply open_call_H|exact HI]. }
    es. destruct x; [|apply es_ret; exact Hopen].
    es. destruct (is_dirobj s x); [|apply es_ret; exact Hopen]. destruct (_ || _); [es|].
    es. apply es_bind; [|intros w _; unfold wget; es]. intros e. unfold add_wrap, bind, alloc_wrap, add_open_file. cbn [fst snd]. destruct (f_free _); discriminate. }
  destruct (has_bit fl O_TMPFILE).
  - rewrite (joinpaths_two _ (linux_like_posix _ (gi_lin s H)) (linux_like_abs _ (gi_lin s H))). apply es_ret. apply Hrest.
  - apply es_ret. apply Hrest.
Qed.

(** ** Closing, disk usage *)
Lemma es_bind_pre {A B} E (m : M A) (k : A -> M B) (P : fs -> Prop) s : P s -> preserves P m -> errs E m s ->
  (forall a t, P t -> errs E (k a) t) -> errs E (bind m k) s.
Proof. intros Hs Hp Hm Hk. apply es_bind; [exact Hm|]. intros a _. apply Hk, Hp, Hs. Qed.
Lemma es_close_file w s : GP s -> errs (okerr false) (close_file w) s.
Proof.
  intros HG. unfold close_file, wget. es. destruct (is_open s w); cbn [negb]; [|es]. es.
  eapply (es_bind_pre _ _ _ GP s HG).
  - destruct (_ && _); [|pres]. pres; try first [apply GP_gsame, flush_keeps].
    apply GP_gsame, mod_time_keeps. intros ?; cbn; auto 10.
  - apply nr_ok. nr. apply nr_flush.
  - intros _ t Ht. eapply (es_bind_pre _ _ _ GP t Ht).
    + destruct (w_closefd _); [apply GP_gsame, close_open_file_keeps|]. apply GP_gsame, keeps_modify_nograph.
      intros s0. destruct (py_index _ _) as [[l|]|]; repeat split.
    + apply nr_ok. nr.
    + intros _ t1 [H1 P1]. destruct (w_del _); [|es]. es.
      * destruct (obj_path_ok t1 (w_obj (wr s w)) H1 P1) as [p Hp]. congruence.
      * apply (es_weaken os_only); [intros e [y K]; left; exists y; exact K|]. apply es_remove_object, H1.
Qed.
Lemma es_close_wrapper w s : GP s -> errs (okerr false) (close_wrapper w) s.
Proof.
  intros HG. unfold close_wrapper, wget. es. destruct (w_kind _).
  - es.
  - apply nr_ok. nr.
  - apply nr_ok. nr.
  - apply es_close_file, HG.
Qed.
Lemma es_os_close fd s : GP s -> errs (okerr false) (os_close fd) s.
Proof. intros HG. unfold os_close. apply es_bind_pre with (P := GP); [exact HG|pres|apply nr_ok, nr_fd|]. intros w t Ht. apply es_close_wrapper, Ht. Qed.
Lemma es_mpfp b p s : Ginv s -> errs (fun e => okerr b e \/ e = AssertErr) (mount_point_for_path p) s.
Proof.
  intros H. unfold mount_point_for_path, mount_point_for_path_. es. destruct (assoc _ _); [es|]. cbv zeta. destruct (nonempty _); [es|].
  unfold auto_mount_force. es. rewrite (Ginv_win s H). es. right. reflexivity.
Qed.
Lemma es_ftruncate fd n : nrec (os_ftruncate fd n).
Proof. unfold os_ftruncate. nr; [|apply nr_size]. intros s e K. unfold lift in K. cbn in K. destruct (ok_fd s fd e K) as [[x ->]|[_ Hx]]; [discriminate|exact Hx]. Qed.
Lemma es_get_usage p s : Ginv s -> errs fin_err (get_disk_usage p) s.
Proof.
  intros H. unfold get_disk_usage. apply es_bind.
  - destruct p; [|es]. eapply es_weaken; [|apply (es_mpfp true), H]. intros e [[[x ->]|[[=] _]]| ->]; discriminate.
  - intros k _. es. destruct (assoc _ _); es. discriminate.
Qed.
Lemma es_set_usage t p s : Ginv s -> errs fin_err (set_disk_usage t p) s.
Proof.
  intros H. unfold set_disk_usage.
  assert (K : forall q, errs fin_err (k <- mount_point_for_path q ;;
     m <- gets (fun s => assoc k (f_mounts s)) ;;
     match m with
     | None => raise KeyErr
     | Some m =>
      if match m_total m with Some _ => (t <? m_used m)%Z | None => false end
      then raise_os ENOSPC
      else modify (fun s => set_mounts s (set_assoc k (mkmount (m_idev m) (Some t) (m_used m)) (f_mounts s)))
     end) s).
  { intros q. apply es_bind.
    - eapply es_weaken; [|apply (es_mpfp true), H]. intros e [[[x ->]|[[=] _]]| ->]; discriminate.
    - intros k _. es. destruct (assoc _ _); [|es; discriminate]. destruct (match m_total _ with Some _ => _ | None => _ end); es. discriminate. }
  destruct p; es; apply K.
Qed.
Lemma es_fs_set b p c s : II b s -> errs (okerr b) (fs_set_contents p c) s.
Proof.
  intros HI. unfold fs_set_contents. es. apply es_bind; [|intros; es]. unfold set_contents. es.
  destruct (is_dirobj s x) eqn:E; [es|]. apply (es_weaken os_only); [apply os_ok|].
  pose proof (es_fill x (Some c) None s E) as K. cbn [fill_file] in K. intros e Ee. apply (K e).
  unfold bind. destruct (set_initial_contents x c s) as [r s']. cbn [fst] in Ee. subst r. reflexivity.
Qed.
Lemma outm_errs {A} (f : A -> out) (m : M A) E s : errs E m s -> errs E (outm f m) s.
Proof. intros H. unfold outm. apply es_bind; [exact H|]. intros. apply es_end. Qed.
