(** * C48: stubs are restored exactly. *)
From Verif Require Import Str StubModel.

(** ** Specification *)
(** A class comes first in its method resolution order. *)
Definition mro_ok (W : world) : Prop := forall c m, W c = SClass m -> exists m', m = c :: m'.
Definition is_static (v : value) : Prop := exists f, v = VStatic f.
Definition is_classm (v : value) : Prop := exists f, v = VClass f.
(** smart_set(o, a, ...) saves the attribute as it is: [o] has it itself (the
    class of [o] has it, if [o] is an instance), it is not None, and it is not
    a method that reading it through [o] would bind. *)
Inductive smart_ok (W : world) (d : dicts) (o : pyobj) (a : str) : Prop :=
| so_own v : is_class W o = false -> d o a = Some v -> ~ is_static v -> smart_ok W d o a
| so_class v : is_class W o = true -> d o a = Some v -> ~ is_classm v -> smart_ok W d o a
| so_inst c n m : W o = SInst c -> W c = SClass m -> d o a = None -> d c a = Some (VObj n) -> smart_ok W d o a.
(** set(o, a, ...): [o] has the attribute itself, and it is not a staticmethod object unless [o] is a class *)
Definition set_ok (W : world) (d : dicts) (o : pyobj) (a : str) : Prop :=
  exists v, d o a = Some v /\ (is_class W o = false -> ~ is_static v).
(** the attributes replaced by smart_set and by set since the last restoration *)
Definition smart_pending (s : stubber) : list (pyobj * str) := map fst (st_stubs s).
Definition set_pending (s : stubber) : list (pyobj * str) := map fst (st_cache s).
(** What a history may do.  A call that raises AttributeError does nothing. *)
Definition fine (W : world) (s : stubber) (c : call) : Prop :=
  match c with
  | SmartSet o a v => smart_set W o a v s = inr AttributeError \/ smart_ok W (st_dicts s) o a
  | Set_ o a v => set W o a v s = inr AttributeError \/ (set_ok W (st_dicts s) o a /\ ~ In (o, a) (smart_pending s))
  | SmartUnsetAll => True
  | UnsetAll => forall k, In k (set_pending s) -> ~ In k (smart_pending s)
  | Assign o a v => In (o, a) (smart_pending s) \/ In (o, a) (set_pending s)
  end.
Fixpoint fine_calls (W : world) (s : stubber) (l : list call) : Prop :=
  match l with [] => True | c :: l' => fine W s c /\ fine_calls W (do_call W c s) l' end.
(** nothing observable is different: no own attribute, no attribute read through any object *)
Definition same_world (W : world) (d d' : dicts) : Prop :=
  (forall o a, d' o a = d o a) /\ (forall o a, getattr W d' o a = getattr W d o a).

(** ** Proofs *)
Definition deq (d d' : dicts) : Prop := forall o a, d o a = d' o a.
Lemma lookup_deq d d' a l : deq d d' -> lookup d a l = lookup d' a l.
Proof. intros H. induction l as [|c l IH]; [reflexivity|]. cbn. rewrite H, IH. reflexivity. Qed.
Lemma getattr_deq W d d' o a : deq d d' -> getattr W d o a = getattr W d' o a.
Proof. intros H. unfold getattr. rewrite !H. destruct (W o); [reflexivity| |]; rewrite (lookup_deq d d' a _ H); reflexivity. Qed.
Lemma same_deq W d d' : deq d' d -> same_world W d d'.
Proof. intros H. split; [exact H|]. intros o a. apply getattr_deq, H. Qed.
Lemma upd_same d o a v : upd d o a v o a = Some v.
Proof. unfold upd. rewrite Nat.eqb_refl, str_eqb_refl. reflexivity. Qed.
Lemma upd_other d o a v o' a' : (o', a') <> (o, a) -> upd d o a v o' a' = d o' a'.
Proof.
  intros H. unfold upd. destruct (Nat.eqb_spec o' o) as [->|]; [|reflexivity]. destruct (str_eqb a' a) eqn:E; [|reflexivity].
  apply str_eqb_eq in E. subst. contradiction H. reflexivity.
Qed.
Lemma upd_deq d d' o a v : deq d d' -> deq (upd d o a v) (upd d' o a v).
Proof. intros H x y. unfold upd. destruct (_ && _); [reflexivity|apply H]. Qed.
Lemma undo_deq l : forall d d', deq d d' -> deq (undo l d) (undo l d').
Proof. induction l as [|[[o a] v] l IH]; intros d d' H; [exact H|]. cbn. apply IH, upd_deq, H. Qed.
Lemma upd_upd d o a v w : deq (upd (upd d o a v) o a w) (upd d o a w).
Proof. intros x y. unfold upd. destruct (_ && _); reflexivity. Qed.
Lemma upd_id d o a v : d o a = Some v -> deq (upd d o a v) d.
Proof.
  intros H x y. unfold upd. destruct (Nat.eqb_spec x o) as [->|]; [|reflexivity]. destruct (str_eqb y a) eqn:E; [|reflexivity]. apply str_eqb_eq in E. subst. auto.
Qed.
Lemma key_dec (k k' : pyobj * str) : {k = k'} + {k <> k'}.
Proof. decide equality; [decide equality; apply ascii_dec|apply Nat.eq_dec]. Qed.
Lemma upd_comm d o a v o' a' v' : (o, a) <> (o', a') -> deq (upd (upd d o a v) o' a' v') (upd (upd d o' a' v') o a v).
Proof.
  intros H x y. destruct (key_dec (x, y) (o, a)) as [E|N].
  - injection E as -> ->. rewrite upd_same, upd_other, upd_same by exact H. reflexivity.
  - rewrite (upd_other _ o a _ x y N). unfold upd. destruct (_ && _); [reflexivity|]. fold (upd d o a v). apply (upd_other d o a v x y N).
Qed.
Lemma undo_upd_in l : forall d o a v, In (o, a) (map fst l) -> deq (undo l (upd d o a v)) (undo l d).
Proof.
  induction l as [|[[o' a'] w] l IH]; intros d o a v H; [destruct H|]. cbn in H. cbn [undo].
  destruct (key_dec (o', a') (o, a)) as [E|N]; [injection E as -> ->; apply undo_deq, upd_upd|].
  destruct H as [H|H]; [congruence|]. intros x y. rewrite (undo_deq l _ _ (upd_comm d o a v o' a' w ltac:(congruence)) x y). apply IH, H.
Qed.
Lemma undo_upd_out l : forall d o a v, ~ In (o, a) (map fst l) -> deq (undo l (upd d o a v)) (upd (undo l d) o a v).
Proof.
  induction l as [|[[o' a'] w] l IH]; intros d o a v H; [intros x y; reflexivity|]. cbn in H. cbn [undo].
  intros x y. rewrite (undo_deq l _ _ (upd_comm d o a v o' a' w ltac:(intros E; apply H; left; congruence)) x y). apply IH. tauto.
Qed.
Lemma undo_out l : forall d o a, ~ In (o, a) (map fst l) -> undo l d o a = d o a.
Proof.
  induction l as [|[[o' a'] w] l IH]; intros d o a H; [reflexivity|]. cbn in *. rewrite IH by tauto. apply upd_other. intros E. apply H. left. congruence.
Qed.
Lemma undo_comm l1 : forall l2 d, (forall k, In k (map fst l1) -> ~ In k (map fst l2)) -> deq (undo l1 (undo l2 d)) (undo l2 (undo l1 d)).
Proof.
  induction l1 as [|[[o a] v] l1 IH]; intros l2 d H; [intros x y; reflexivity|]. cbn [undo]. intros x y.
  rewrite <- (undo_deq l1 _ _ (undo_upd_out l2 d o a v (H (o, a) ltac:(cbn; auto))) x y). apply IH. intros k Hk. apply H. cbn. auto.
Qed.
(** the value saved is the one in the dictionary *)
Lemma smart_set_saves W o a v s s' : mro_ok W -> smart_ok W (st_dicts s) o a -> smart_set W o a v s = inl s' ->
  exists o1 v1, st_dicts s o1 a = Some v1 /\ s' = mkstub (upd (st_dicts s) o1 a v) ((o1, a, v1) :: st_stubs s) (st_cache s).
Proof.
  intros HW H E. unfold smart_set in E. destruct H as [v0 Hc Hd Hn|v0 Hc Hd Hn|c n m Hi Hc Hd Hd2].
  - rewrite Hc, Hd in E. assert (G : getattr W (st_dicts s) o a = Some v0) by (unfold getattr, is_class in *; destruct (W o); try discriminate Hc; rewrite Hd; reflexivity).
    rewrite G, orb_true_r in E. cbv zeta iota in E. exists o, v0. split; [exact Hd|]. destruct v0; try discriminate E; try (injection E as <-; reflexivity). contradiction Hn. eexists; reflexivity.
  - unfold is_module in E. unfold is_class in *. destruct (W o) as [|m|] eqn:Ho; try discriminate Hc. cbn [negb andb orb] in E.
    destruct (HW _ _ Ho) as (m' & ->). assert (G : getattr W (st_dicts s) o a = Some (bind_class o v0)) by (unfold getattr; rewrite Ho; cbn; rewrite Hd; reflexivity).
    rewrite G in E. unfold mro_of in E. rewrite Ho in E. cbn [rev] in E. rewrite fold_left_app in E. cbn [fold_left] in E. rewrite Hd in E. exists o, v0. split; [exact Hd|].
    destruct v0 as [|n0|n0|f|f|x f]; cbn [bind_class] in E; try discriminate E; try (injection E as <-; reflexivity); [|contradiction Hn; eexists; reflexivity].
    destruct f; try discriminate E; injection E as <-; reflexivity.
  - unfold is_module, is_class in E. rewrite Hi, Hd in E. cbn [negb andb orb] in E. destruct (HW _ _ Hc) as (m' & ->).
    assert (G : getattr W (st_dicts s) o a = Some (VObj n)) by (unfold getattr, mro_of; rewrite Hi, Hd, Hc; cbn; rewrite Hd2; reflexivity).
    rewrite G in E. unfold mro_of in E. rewrite Hi, Hc in E. cbn [rev] in E. rewrite fold_left_app in E. cbn [fold_left] in E. injection E as <-. exists c, (VObj n). auto.
Qed.
Lemma set_saves W o a v s s' : mro_ok W -> set_ok W (st_dicts s) o a -> set W o a v s = inl s' ->
  exists v1, st_dicts s o a = Some v1 /\ s' = mkstub (upd (st_dicts s) o a v) (st_stubs s) ((o, a, v1) :: st_cache s).
Proof.
  intros HW (v0 & Hd & Hn) E. unfold set in E. exists v0. split; [exact Hd|]. rewrite Hd in E. unfold is_class in Hn. unfold getattr in E. destruct (W o) as [|m|c] eqn:Ho.
  - rewrite Hd in E. destruct v0; injection E as <-; try reflexivity. contradiction Hn; [reflexivity|eexists; reflexivity].
  - destruct (HW _ _ Ho) as (m' & ->). cbn in E. rewrite Hd in E. cbn in E. destruct v0; cbn in E; injection E as <-; reflexivity.
  - rewrite Hd in E. destruct v0; injection E as <-; try reflexivity. contradiction Hn; [reflexivity|eexists; reflexivity].
Qed.
Definition undone (s : stubber) : dicts := undo (st_cache s) (undo (st_stubs s) (st_dicts s)).
Lemma call_undone W c s : mro_ok W -> fine W s c -> deq (undone (do_call W c s)) (undone s).
Proof.
  intros HW H. unfold undone. destruct c as [o a v|o a v| | |o a v]; cbn [fine do_call] in *.
  - destruct (smart_set W o a v s) as [s'|e] eqn:E; [|cbn [or_same]; intros x y; reflexivity]. destruct H as [H|H]; [discriminate H|].
    destruct (smart_set_saves W o a v s s' HW H E) as (o1 & v1 & Hd & ->). cbn [or_same st_cache st_stubs st_dicts undo].
    apply undo_deq, undo_deq. intros x y. rewrite (upd_upd _ _ _ _ _ x y). apply (upd_id _ _ _ _ Hd).
  - destruct (set W o a v s) as [s'|e] eqn:E; [|cbn [or_same]; intros x y; reflexivity]. destruct H as [H|[H Hp]]; [discriminate H|].
    destruct (set_saves W o a v s s' HW H E) as (v1 & Hd & ->). cbn [or_same st_cache st_stubs st_dicts undo].
    apply undo_deq. intros x y. rewrite (upd_deq _ _ o a v1 (undo_upd_out (st_stubs s) (st_dicts s) o a v Hp) x y), (upd_upd _ _ _ _ _ x y).
    apply upd_id. rewrite undo_out; [exact Hd|exact Hp].
  - cbn [smart_unset_all st_cache st_stubs st_dicts undo]. intros x y. reflexivity.
  - cbn [unset_all st_cache st_stubs st_dicts undo]. intros x y. rewrite undo_comm; [reflexivity|]. intros k H1 H2. exact (H k H2 H1).
  - cbn [st_cache st_stubs st_dicts]. destruct (in_dec key_dec (o, a) (smart_pending s)) as [Hi|Hi].
    + apply undo_deq. apply undo_upd_in, Hi.
    + destruct H as [H|H]; [contradiction|]. intros x y. rewrite (undo_deq _ _ _ (undo_upd_out _ _ _ _ v Hi) x y). apply undo_upd_in, H.
Qed.
Lemma calls_undone W l : mro_ok W -> forall s, fine_calls W s l -> deq (undone (do_calls W l s)) (undone s).
Proof.
  intros HW. induction l as [|c l IH]; intros s H; [intros x y; reflexivity|]. destruct H as [H1 H2]. change (do_calls W (c :: l) s) with (do_calls W l (do_call W c s)).
  intros x y. rewrite (IH _ H2 x y). apply call_undone; assumption.
Qed.

(** ** C48 *)
(** After any history of smart_set, set, smart_unset_all, unset_all and
    assignments to the replaced attributes, restoring gives back the original
    attributes of all objects. *)
Theorem C48_restored_partial : forall W d l, mro_ok W -> fine_calls W (new_stubs d) l ->
  let s := do_calls W l (new_stubs d) in same_world W d (st_dicts (unset_all (smart_unset_all s))).
Proof. intros W d l HW H s. apply same_deq. intros x y. apply (calls_undone W l HW _ H). Qed.
(** the same when the object is dropped without restoring: __del__ does it *)
Theorem C48_dropped_partial : forall W d l, mro_ok W -> fine_calls W (new_stubs d) l ->
  same_world W d (st_dicts (del (do_calls W l (new_stubs d)))).
Proof. intros W d l HW H. exact (C48_restored_partial W d l HW H). Qed.
(** smart_unset_all alone, when only smart_set was used *)
Theorem C48_smart_restored_partial : forall W d l, mro_ok W -> fine_calls W (new_stubs d) l -> (forall o a v, ~ In (Set_ o a v) l) ->
  same_world W d (st_dicts (smart_unset_all (do_calls W l (new_stubs d)))).
Proof.
  intros W d l HW H Hn. assert (E : st_cache (do_calls W l (new_stubs d)) = []).
  { assert (G : forall s, st_cache s = [] -> st_cache (do_calls W l s) = []); [|apply G; reflexivity]. clear H. induction l as [|c l IH]; intros s Hs; [exact Hs|].
    change (do_calls W (c :: l) s) with (do_calls W l (do_call W c s)). apply IH; [intros o a v K; apply (Hn o a v); right; exact K|]. destruct c as [o a v|o a v| | |o a v]; cbn [do_call]; auto.
    - unfold smart_set. match goal with |- context [match ?x with _ => _ end] => destruct x as [[o1 [| | | | |]]|] end; exact Hs.
    - exfalso. apply (Hn o a v). left. reflexivity. }
  apply same_deq. intros x y. pose proof (calls_undone W l HW _ H x y) as K. unfold undone in K. rewrite E in K. exact K.
Qed.
(** restoring again does nothing *)
Theorem C48_again : forall s, smart_unset_all (smart_unset_all s) = smart_unset_all s /\ unset_all (unset_all s) = unset_all s /\
  unset_all (smart_unset_all (unset_all (smart_unset_all s))) = unset_all (smart_unset_all s).
Proof. intros s. repeat split. Qed.
(** a call that raises AttributeError replaces nothing; one that returns puts the new value in place *)
Theorem C48_set_value : forall W s o a v s', mro_ok W -> is_class W o = true \/ is_module W o = true \/ st_dicts s o a <> None ->
  smart_set W o a v s = inl s' -> ~ is_static v -> ~ is_classm v -> getattr W (st_dicts s') o a = Some v /\
  forall o' a', (o', a') <> (o, a) -> st_dicts s' o' a' = st_dicts s o' a'.
Proof.
  intros W [d st ca] o a v s' HW Hk E N1 N2. cbn [st_dicts] in *.
  assert (G : st_dicts s' = upd d o a v).
  { unfold smart_set in E. cbn [st_dicts] in E. destruct (is_module W o) eqn:Em; cbn [orb] in E.
    - destruct (getattr W d o a) as [w|]; [|discriminate E]. destruct w; try discriminate E; injection E as <-; reflexivity.
    - destruct (is_class W o) eqn:Ec; cbn [negb andb] in E.
      + unfold is_class in Ec. destruct (W o) as [|m|] eqn:Ho; try discriminate Ec. destruct (HW _ _ Ho) as (m' & ->). unfold mro_of in E. rewrite Ho in E. cbn [rev] in E. rewrite fold_left_app in E. cbn [fold_left] in E.
        destruct (getattr W d o a) as [w|] eqn:Eg.
        * destruct w; try discriminate E; injection E as <-; reflexivity.
        * exfalso. assert (K : forall l : list pyobj, fold_left (fun (acc : option (pyobj * value)) (_ : pyobj) => acc) l None = None) by (induction l; auto).
          rewrite K in E. discriminate E.
      + destruct Hk as [Hk|[Hk|Hk]]; [discriminate Hk|discriminate Hk|]. destruct (d o a) as [w|] eqn:Ed; [|congruence].
        destruct (getattr W d o a) as [w'|]; [|discriminate E]. destruct w'; try discriminate E; injection E as <-; reflexivity. }
  rewrite G. split; [|intros o' a' H; apply upd_other, H]. unfold getattr. unfold is_class, is_module in Hk. destruct (W o) as [|m|] eqn:Ho.
  - apply upd_same.
  - destruct (HW _ _ Ho) as (m' & ->). cbn. rewrite upd_same. cbn. destruct v; try reflexivity; [contradiction N1|contradiction N2]; eexists; reflexivity.
  - rewrite upd_same. reflexivity.
Qed.
(** Modules, which are what the Patcher stubs: no conditions but that no
    staticmethod objects are around and that set and smart_set are not mixed *)
Theorem C48_modules : forall W d l, mro_ok W ->
  (forall o a v, d o a = Some v -> ~ is_static v) ->
  (forall c, In c l -> match c with SmartSet o a v => is_module W o = true /\ ~ is_static v | SmartUnsetAll => True | _ => False end) ->
  same_world W d (st_dicts (smart_unset_all (do_calls W l (new_stubs d)))).
Proof.
  intros W d l HW Hd Hl. apply C48_smart_restored_partial; [exact HW| |intros o a v K; exact (Hl _ K)].
  assert (G : forall l s, (forall c, In c l -> match c with SmartSet o a v => is_module W o = true /\ ~ is_static v | SmartUnsetAll => True | _ => False end) ->
    (forall o a v, st_dicts s o a = Some v -> ~ is_static v) -> (forall o a v, In (o, a, v) (st_stubs s) -> ~ is_static v) -> fine_calls W s l).
  2:{ apply G; [exact Hl|exact Hd|]. intros o a v []. }
  clear l Hl d Hd. induction l as [|c l IH]; intros s Hl Hs Hst; [exact Logic.I|]. pose proof (Hl c (or_introl eq_refl)) as Hc. cbn [fine_calls].
  assert (F : fine W s c).
  { destruct c as [o a v|o a v| | |o a v]; try contradiction; [|exact Logic.I]. destruct Hc as [Hm Hv]. cbn [fine]. unfold is_module in Hm. destruct (W o) eqn:Ho; try discriminate Hm.
    destruct (st_dicts s o a) as [w|] eqn:Ed.
    - right. apply (so_own W _ o a w); [unfold is_class; rewrite Ho; reflexivity|exact Ed|apply (Hs _ _ _ Ed)].
    - left. unfold smart_set, is_module, getattr. rewrite Ho, Ed. reflexivity. }
  split; [exact F|]. apply IH; [intros c' K; apply Hl; right; exact K| |].
  - destruct c as [o a v|o a v| | |o a v]; try contradiction; cbn [do_call].
    + destruct (smart_set W o a v s) as [s'|] eqn:E; [|exact Hs]. cbn [fine] in F. destruct F as [F|F]; [congruence|].
      destruct (smart_set_saves W o a v s s' HW F E) as (o1 & v1 & Hd & ->). cbn [or_same st_dicts]. intros x y w.
      destruct (key_dec (x, y) (o1, a)) as [K|N]; [injection K as -> ->; rewrite upd_same; intros K; injection K as <-; apply Hc|rewrite upd_other by exact N; apply Hs].
    + cbn [smart_unset_all st_dicts]. clear F Hc IH. revert Hs Hst. generalize (st_dicts s). induction (st_stubs s) as [|[[o a] v] st IH]; intros d Hs Hst; [exact Hs|].
      cbn [undo]. apply IH; [|intros x y w K; apply (Hst x y w); right; exact K]. intros x y w.
      destruct (key_dec (x, y) (o, a)) as [K|N]; [injection K as -> ->; rewrite upd_same; intros K; injection K as <-; apply (Hst o a v); left; reflexivity|rewrite upd_other by exact N; apply Hs].
  - destruct c as [o a v|o a v| | |o a v]; try contradiction; cbn [do_call].
    destruct (smart_set W o a v s) as [s'|] eqn:E; [|exact Hst]. cbn [fine] in F. destruct F as [F|F]; [congruence|].
    destruct (smart_set_saves W o a v s s' HW F E) as (o1 & v1 & Hd & ->). cbn [or_same st_stubs]. intros x y w [K|K]; [injection K as <- <- <-; apply (Hs _ _ _ Hd)|apply (Hst _ _ _ K)].
Qed.

(** ** What is missing, and concrete cases *)
(** object 0: a module; 1: a class; 2: its subclass; 3 and 4: instances of 1 *)
Definition c48_world : world := fun o =>
  match o with 0 => SModule | 1 => SClass [1] | 2 => SClass [2; 1] | 3 | 4 => SInst 1 | _ => SModule end.
Lemma c48_mro : mro_ok c48_world.
Proof. intros [|[|[|[|[|c]]]]] m H; cbn in H; try discriminate H; injection H as <-; eexists; reflexivity. Qed.
Definition c48_dicts : dicts := fun o a =>
  match o with
  | 0 => if str_eqb a (L "path") then Some (VObj 1) else None
  | 1 => if str_eqb a (L "m") then Some (VFun 2) else if str_eqb a (L "cm") then Some (VClass (VFun 3)) else if str_eqb a (L "sm") then Some (VStatic (VFun 4)) else None
  | _ => None
  end.
Example C48_case : let l := [SmartSet 0 (L "path") (VObj 7); Set_ 1 (L "cm") (VObj 8); SmartSet 0 (L "path") (VObj 9); SmartSet 1 (L "sm") (VFun 5); Assign 0 (L "path") (VObj 6); SmartSet 0 (L "none") (VObj 1)] in
  fine_calls c48_world (new_stubs c48_dicts) l /\ getattr c48_world (st_dicts (do_calls c48_world l (new_stubs c48_dicts))) 0 (L "path") = Some (VObj 6) /\
  st_dicts (unset_all (smart_unset_all (do_calls c48_world l (new_stubs c48_dicts)))) 1 (L "sm") = Some (VStatic (VFun 4)).
Proof.
  cbn zeta. split; [|split; reflexivity]. cbn [fine_calls].
  split; [right; eapply so_own; [reflexivity|reflexivity|intros [f K]; discriminate K]|].
  split; [right; split; [eexists; split; [reflexivity|discriminate]|cbn; intros [K|[]]; discriminate K]|].
  split; [right; eapply so_own; [reflexivity|reflexivity|intros [f K]; discriminate K]|].
  split; [right; eapply so_class; [reflexivity|reflexivity|intros [f K]; discriminate K]|].
  split; [left; right; left; reflexivity|]. split; [left; reflexivity|exact Logic.I].
Qed.
(** smart_set and then set of the same attribute: the stub of smart_set stays *)
Theorem C48_mixed_refuted : let s := do_calls c48_world [SmartSet 0 (L "path") (VObj 7); Set_ 0 (L "path") (VObj 8)] (new_stubs c48_dicts) in
  c48_dicts 0 (L "path") = Some (VObj 1) /\ st_dicts (unset_all (smart_unset_all s)) 0 (L "path") = Some (VObj 7).
Proof. split; reflexivity. Qed.
(** stubbing a method through an instance: afterwards every instance calls the method of that one *)
Theorem C48_instance_refuted : let s := do_calls c48_world [SmartSet 3 (L "m") (VFun 9)] (new_stubs c48_dicts) in
  getattr c48_world c48_dicts 4 (L "m") = Some (VBound 4 (VFun 2)) /\
  getattr c48_world (st_dicts (smart_unset_all s)) 4 (L "m") = Some (VBound 3 (VFun 2)).
Proof. split; reflexivity. Qed.
(** stubbing a classmethod with smart_set: the subclass calls it with its base class afterwards *)
Theorem C48_classmethod_refuted : let s := do_calls c48_world [SmartSet 1 (L "cm") (VFun 9)] (new_stubs c48_dicts) in
  getattr c48_world c48_dicts 2 (L "cm") = Some (VBound 2 (VFun 3)) /\
  getattr c48_world (st_dicts (smart_unset_all s)) 2 (L "cm") = Some (VBound 1 (VFun 3)).
Proof. split; reflexivity. Qed.
(** set of an inherited attribute makes it an attribute of its own *)
Theorem C48_inherited_refuted : let s := do_calls c48_world [Set_ 2 (L "m") (VFun 9)] (new_stubs c48_dicts) in
  c48_dicts 2 (L "m") = None /\ st_dicts (unset_all s) 2 (L "m") = Some (VFun 2).
Proof. split; reflexivity. Qed.

Print Assumptions C48_restored_partial.
Print Assumptions C48_dropped_partial.
Print Assumptions C48_smart_restored_partial.
Print Assumptions C48_again.
Print Assumptions C48_set_value.
Print Assumptions C48_modules.
Print Assumptions C48_mixed_refuted.
Print Assumptions C48_instance_refuted.
Print Assumptions C48_classmethod_refuted.
Print Assumptions C48_inherited_refuted.
