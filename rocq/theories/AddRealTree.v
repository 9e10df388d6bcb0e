(** * Lemmas about trees that grow, for add_real_directory *)
From Verif Require Export AddRealThm.
From Verif Require Import TreeThm PropTree PropOps.

(** ** Paths after one more entry *)
Lemma one_more_paths s s' d n pre : Ginv s -> one_more s s' d n (f_next s) -> at_names s pre = Some d ->
  is_dirobj s' (f_next s) = false ->
  (forall q x, at_names s q = Some x -> at_names s' q = Some x) /\
  at_names s' (pre ++ [n]) = Some (f_next s) /\
  forall q x, at_names s' q = Some x -> at_names s q = Some x \/ (q = pre ++ [n] /\ x = f_next s).
Proof.
  intros H OM Hat Hf.
  assert (X := one_more_new_ext s s' d n H OM).
  assert (Fw : forall q x, at_names s q = Some x -> at_names s' q = Some x).
  { intros q. induction q as [|m q IH] using rev_ind; intros x K; [exact K|].
    apply at_names_snoc_inv in K. destruct K as (e & K1 & K2). rewrite (at_names_snoc s' q m e (IH e K1)). apply (ex_ent _ _ X _ _ _ K2). }
  assert (En : entry s' d n = Some (f_next s)).
  { unfold entry, ents. rewrite (om_dir _ _ _ _ _ OM). cbn. rewrite assoc_app. pose proof (om_was _ _ _ _ _ OM) as K. unfold entry in K. rewrite K. cbn. rewrite str_eqb_refl. reflexivity. }
  split; [exact Fw|]. split; [rewrite (at_names_snoc s' pre n d (Fw pre d Hat)); exact En|].
  intros q. induction q as [|m q IH] using rev_ind; intros x K; [left; exact K|].
  apply at_names_snoc_inv in K. destruct K as (e & K1 & K2). destruct (IH e K1) as [K3|[_ ->]].
  - destruct (Nat.eq_dec e d) as [->|Ne].
    + pose proof K2 as K4. unfold entry, ents in K4. rewrite (om_dir _ _ _ _ _ OM) in K4. cbn in K4. rewrite assoc_app in K4.
      destruct (assoc m (ents s d)) as [y|] eqn:Ea.
      * left. rewrite (at_names_snoc s q m d K3). unfold entry. congruence.
      * cbn in K4. destruct (str_eqb m n) eqn:Em; [|discriminate]. injection K4 as <-. apply str_eqb_eq in Em. subst m.
        right. split; [|reflexivity]. f_equal. apply (dir_one_path s H q pre d); [apply (om_isdir _ _ _ _ _ OM)|exact K3|exact Hat].
    + left. rewrite (at_names_snoc s q m e K3). assert (e < f_next s) by apply (at_names_lt s q e H K3).
      unfold entry, ents in *. rewrite (om_other _ _ _ _ _ OM e Ne) in K2 by lia. exact K2.
  - exfalso. pose proof (entry_dirobj _ _ _ _ K2) as K. congruence.
Qed.

(** ** Paths after a chain of directories *)
Lemma dirs_made_paths s s' d n rest m a : Ginv s -> is_dirobj s d = true -> dirs_made s s' d (n :: rest) m -> at_names s a = Some d ->
  (forall q x, at_names s q = Some x -> at_names s' q = Some x) /\
  forall q x, at_names s' q = Some x -> at_names s q = Some x \/
    exists k, k <= length rest /\ q = a ++ n :: firstn k rest /\ x = f_next s + k.
Proof.
  intros H Hd DM Hat. split; [apply (dirs_made_at s s' d n rest m a H Hd Hat DM)|].
  destruct (dm_top _ _ _ _ _ DM n rest eq_refl) as [Hw D].
  intros q. induction q as [|w q IH] using rev_ind; intros x K; [left; exact K|].
  apply at_names_snoc_inv in K. destruct K as (e & K1 & K2). destruct (IH e K1) as [K3|(k & Hk & -> & ->)].
  - assert (Le := at_names_lt s q e H K3). destruct (Nat.eq_dec e d) as [->|Ne].
    + unfold entry, ents in K2. rewrite D in K2. cbn in K2. rewrite assoc_app in K2.
      fold (ents s d) in K2. destruct (assoc w (ents s d)) as [y|] eqn:Ea.
      * left. rewrite (at_names_snoc s q w d K3). unfold entry. congruence.
      * cbn in K2. destruct (str_eqb w n) eqn:Em; [|discriminate]. injection K2 as <-. apply str_eqb_eq in Em. subst w.
        right. exists 0. split; [lia|]. split; [|lia]. cbn [firstn]. f_equal. apply (dir_one_path s H q a d); assumption.
    + left. rewrite (at_names_snoc s q w e K3). unfold entry, ents in *. rewrite (dm_old _ _ _ _ _ DM e Le Ne) in K2. exact K2.
  - assert (exists nk, nth_error (n :: rest) k = Some nk) as [nk Hnk].
    { destruct (nth_error (n :: rest) k) eqn:E; [eauto|]. apply nth_error_None in E. cbn in E. lia. }
    destruct (dm_new _ _ _ _ _ DM k nk Hnk) as (Hb & _). unfold entry, ents in K2. rewrite Hb in K2.
    cbn [nth_error] in K2. destruct (nth_error rest k) as [w'|] eqn:E; [|discriminate]. cbn in K2.
    destruct (str_eqb w w') eqn:Em; [|discriminate]. injection K2 as <-. apply str_eqb_eq in Em. subst w'.
    right. exists (S k). assert (k < length rest) by (apply nth_error_Some; congruence). split; [lia|]. split; [|lia].
    rewrite <- app_assoc. f_equal. cbn [app]. f_equal.
    clear - E. revert rest E. induction k as [|k IH]; intros [|y rest] E; try discriminate; cbn in *; [injection E as ->; reflexivity|].
    f_equal. apply IH. exact E.
Qed.

(** ** Real trees *)
Fixpoint at_tree (t : rtree) (q : list str) : option rtree :=
  match q with
  | [] => Some t
  | n :: q' => match t with
               | RDir _ es => match assoc n es with Some t' => at_tree t' q' | None => None end
               | _ => None
               end
  end.
Definition leaf (t : rtree) : bool := match t with RDir _ _ => false | _ => true end.
(** names in a real directory are different, and ordinary *)
Definition real_tree (t : rtree) : Prop :=
  forall q st es, at_tree t q = Some (RDir st es) -> NoDup (map fst es) /\ Forall (ordinary slash) (map fst es).

Lemma at_tree_app t a b : at_tree t (a ++ b) = match at_tree t a with Some t' => at_tree t' b | None => None end.
Proof.
  revert t. induction a as [|n a IH]; intros t; [reflexivity|]. cbn. destruct t as [| |st es]; try reflexivity.
  destruct (assoc n es); [apply IH|reflexivity].
Qed.
Lemma real_walk_dir rel st es : real_walk rel (RDir st es) = (rel, es) :: flat_map (fun e => real_walk (rel ++ [fst e]) (snd e)) es.
Proof.
  cbn [real_walk]. f_equal. induction es as [|[n t] r IH]; [reflexivity|]. cbn [flat_map fst snd]. f_equal. exact IH.
Qed.
Lemma real_walk_all q : forall t rel st es, at_tree t q = Some (RDir st es) -> In (rel ++ q, es) (real_walk rel t).
Proof.
  induction q as [|n q IH]; intros t rel st es E.
  - cbn in E. injection E as ->. rewrite app_nil_r, real_walk_dir. left. reflexivity.
  - cbn in E. destruct t as [| |st' es']; try discriminate. destruct (assoc n es') as [t'|] eqn:Ea; [|discriminate].
    rewrite real_walk_dir. right. apply in_flat_map. exists (n, t'). split; [apply assoc_In, Ea|]. cbn [fst snd].
    specialize (IH t' (rel ++ [n]) st es E). rewrite <- app_assoc in IH. exact IH.
Qed.
Section TreeInd.
Variable P : rtree -> Prop.
Hypothesis Pf : forall st d, P (RFile st d).
Hypothesis Pl : forall t, P (RLink t).
Hypothesis Pd : forall st es, (forall n t, In (n, t) es -> P t) -> P (RDir st es).
Fixpoint rtree_ind' (t : rtree) : P t :=
  match t with
  | RFile st d => Pf st d
  | RLink x => Pl x
  | RDir st es => Pd st es ((fix go (es : list (str * rtree)) : forall n t, In (n, t) es -> P t :=
      match es with
      | [] => fun n t K => match K with end
      | e :: r => fun n t K => match K with
                               | or_introl E => match E in _ = y return P (snd y) with eq_refl => rtree_ind' (snd e) end
                               | or_intror K' => go r n t K'
                               end
      end) es)
  end.
End TreeInd.
Lemma real_tree_sub t n t' st es : real_tree t -> t = RDir st es -> In (n, t') es -> assoc n es = Some t' /\ real_tree t'.
Proof.
  intros W -> Hin. destruct (W [] st es eq_refl) as [Nd _]. assert (E := assoc_NoDup n t' es Nd Hin). split; [exact E|].
  intros q st' es' K. apply (W (n :: q) st' es'). cbn. rewrite E. exact K.
Qed.
Lemma real_walk_only t : forall rel r es, real_tree t -> In (r, es) (real_walk rel t) -> exists q st, r = rel ++ q /\ at_tree t q = Some (RDir st es).
Proof.
  induction t as [st d|x|st es0 IH] using rtree_ind'; intros rel r es W K; [contradiction|contradiction|].
  rewrite real_walk_dir in K. destruct K as [K|K].
  - injection K as <- <-. exists [], st. rewrite app_nil_r. split; reflexivity.
  - apply in_flat_map in K. destruct K as ((n & t') & Hin & K). cbn [fst snd] in K.
    destruct (real_tree_sub _ n t' st es0 W eq_refl Hin) as [Ea W']. destruct (IH n t' Hin _ _ _ W' K) as (q & st' & -> & E).
    exists (n :: q), st'. rewrite <- app_assoc. split; [reflexivity|]. cbn. rewrite Ea. exact E.
Qed.
