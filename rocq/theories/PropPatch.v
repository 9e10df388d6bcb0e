(** * C49: the Patcher leaves the interpreter as it found it. *)
From Verif Require Import Str StubModel PatcherModel PropStub.

(** ** Specification *)
Definition plain (v : value) : Prop := v <> VNone /\ ~ is_static v.
Definition special (S : setup) (o : pyobj) (a : str) : Prop := (o, a) = (s_linecache S, L "open") \/ (o, a) = (s_tokenize S, L "_builtin_open").
(** What _find_modules may find: attributes of modules that are there, with
    something in them that can be replaced (linecache and tokenize are skipped). *)
Definition found_ok (S : setup) (g : nat) (d : dicts) : Prop :=
  forall o a v, In (o, a, v) (patches S g) -> is_module (s_world S) o = true /\ plain v /\ ~ special S o a /\ exists x, d o a = Some x /\ plain x.
(** ... and the default arguments that are file system functions *)
Definition defargs_ok (S : setup) (g : nat) (I : interp) : Prop :=
  forall f i ft fake, In (f, i, ft, fake) (s_defargs S g) -> nth_error (i_defaults I f) i = Some ft.
Definition fake_names (S : setup) : list str := map fst (s_fakes S 0).
(** the names of the fake modules do not change, default arguments once found stay known *)
Record setup_ok (S : setup) (I : interp) : Prop := {
  so_mro : mro_ok (s_world S);
  so_names : forall g, map fst (s_fakes S g) = fake_names S;
  so_defargs : forall g, defargs_ok S g I;
  so_known : forall g, incl (s_defargs S g) (s_defargs S (Datatypes.S g))
}.
(** The interpreter without a Patcher: the reference.  It sees the program's
    own assignments and imports, except assignments to attributes that are
    replaced at that moment and imports while patching. *)
Definition ref := (dicts * (str -> option value))%type.
Definition replaced (p : patcher) (o : pyobj) (a : str) : Prop := In (o, a) (map fst (p_stubs p)).
Definition ref_step (S : setup) (e : event) (p : patcher) (r : ref) : ref :=
  match e with
  | SetUp => (upd (upd (fst r) (s_linecache S) (L "open") (s_open S)) (s_tokenize S) (L "_builtin_open") (s_open S), snd r)
  | SetAttr o a v => if in_dec key_dec (o, a) (map fst (p_stubs p)) then r else (upd (fst r) o a v, snd r)
  | Import n v => if p_patching p then r else match snd r n with Some _ => r | None => (fst r, set_mod (snd r) n (Some v)) end
  | _ => r
  end.
(** what the program may do: setUp finds what is there, resume comes after a
    setUp, values assigned are plain *)
Definition fine_event (S : setup) (e : event) (p : patcher) (r : ref) : Prop :=
  match e with
  | SetUp => found_ok S (Datatypes.S (p_gen p)) (fst r)
  | Resume => p_gen p <> 0
  | SetAttr o a v => plain v
  | _ => True
  end.
Fixpoint fine_events (S : setup) (l : list event) (ip : interp * patcher) (r : ref) : Prop :=
  match l with
  | [] => True
  | e :: l' => fine_event S e (snd ip) r /\ forall ip', event_step S e ip = inl ip' -> fine_events S l' ip' (ref_step S e (snd ip) r)
  end.
Fixpoint ref_run (S : setup) (l : list event) (ip : interp * patcher) (r : ref) : ref :=
  match l with
  | [] => r
  | e :: l' => match event_step S e ip with inl ip' => ref_run S l' ip' (ref_step S e (snd ip) r) | inr _ => r end
  end.

(** ** Stubs *)
Lemma plain_smart_ok W d o a v : is_module W o = true -> d o a = Some v -> plain v -> smart_ok W d o a.
Proof.
  intros H1 H2 [_ H3]. apply (so_own W d o a v); [|exact H2|exact H3]. unfold is_module, is_class in *. destruct (W o); [reflexivity|discriminate H1|discriminate H1].
Qed.
Lemma smart_sets_ok S l : mro_ok (s_world S) -> forall s, (forall o a v, In (o, a, v) l -> is_module (s_world S) o = true /\ plain v /\ exists x, st_dicts s o a = Some x /\ plain x) ->
  exists s', smart_sets S l s = inl s' /\ deq (undo (st_stubs s') (st_dicts s')) (undo (st_stubs s) (st_dicts s)) /\
    (forall o a, In (o, a) (map fst (st_stubs s')) <-> In (o, a) (map fst l) \/ In (o, a) (map fst (st_stubs s))) /\
    (forall o a, ~ In (o, a) (map fst l) -> st_dicts s' o a = st_dicts s o a) /\
    (forall o a v, In (o, a, v) l -> NoDup (map fst l) -> st_dicts s' o a = Some v).
Proof.
  intros HW. induction l as [|[[o a] v] l IH]; intros s H.
  - exists s. split; [reflexivity|]. split; [intros x y; reflexivity|]. split; [cbn; tauto|]. split; [auto|intros ? ? ? []].
  - destruct (H o a v (or_introl eq_refl)) as (Hm & Hp & x & Hx & Hpx). cbn [smart_sets].
    pose proof (plain_smart_ok _ _ _ _ _ Hm Hx Hpx) as Hs.
    assert (E : exists s1, smart_set (s_world S) o a v s = inl s1).
    { unfold smart_set. rewrite Hm. cbn [orb]. unfold getattr. unfold is_module in Hm. destruct (s_world S o); try discriminate Hm. rewrite Hx. destruct Hpx as [Hpx _]. destruct x; try (eexists; reflexivity). congruence. }
    destruct E as [s1 E]. rewrite E. destruct (smart_set_saves _ _ _ _ _ _ HW Hs E) as (o1 & v1 & Hd & Es1).
    assert (o1 = o /\ v1 = x).
    { unfold smart_set in E. rewrite Hm in E. cbn [orb] in E. unfold getattr in E. unfold is_module in Hm. destruct (s_world S o); try discriminate Hm. rewrite Hx in E.
      destruct x; try discriminate E; injection E as E; rewrite Es1 in E; injection E as E1 E2 E3; (split; [congruence|]); try congruence; destruct Hpx as [_ Hpx]; contradiction Hpx; eexists; reflexivity. }
    destruct H0 as [-> ->].
    destruct (IH s1) as (s' & E' & U & K & N & V).
    { intros o' a' v' Hin. destruct (H o' a' v' (or_intror Hin)) as (A1 & A2 & y & A3 & A4). split; [exact A1|]. split; [exact A2|]. rewrite Es1. cbn [st_dicts].
      destruct (key_dec (o', a') (o, a)) as [Ek|Nk]; [injection Ek as -> ->; exists v; split; [apply upd_same|exact Hp]|]. exists y. rewrite upd_other by exact Nk. auto. }
    exists s'. split; [exact E'|]. split; [|split; [|split]].
    + intros p q. rewrite (U p q), Es1. cbn [st_stubs st_dicts undo]. apply undo_deq. intros p' q'. rewrite (upd_upd _ _ _ _ _ p' q'). apply (upd_id _ _ _ _ Hx).
    + intros p q. rewrite K, Es1. cbn. tauto.
    + intros p q Hn. cbn in Hn. rewrite N by tauto. rewrite Es1. apply upd_other. intros Ek. apply Hn. left. congruence.
    + intros p q w Hin Hnd. cbn in Hnd. apply NoDup_cons_iff in Hnd. destruct Hnd as [Hnd1 Hnd2]. destruct Hin as [Ek|Hin]; [|apply V; assumption].
      injection Ek as <- <- <-. rewrite N by exact Hnd1. rewrite Es1. apply upd_same.
Qed.

(** ** Default arguments *)
Lemma replace_nth_len l : forall i v, length (replace_nth l i v) = length l.
Proof. induction l as [|x l IH]; intros [|i] v; cbn; auto. Qed.
Lemma replace_nth_same l : forall i v, i < length l -> nth_error (replace_nth l i v) i = Some v.
Proof. induction l as [|x l IH]; intros [|i] v H; cbn in *; try lia; [reflexivity|apply IH; lia]. Qed.
Lemma replace_nth_other l : forall i j v, i <> j -> nth_error (replace_nth l i v) j = nth_error l j.
Proof. induction l as [|x l IH]; intros [|i] [|j] v H; cbn in *; auto; try congruence. Qed.
Definition differs_at (X : list (nat * nat * value * value)) (d d0 : nat -> list value) : Prop :=
  forall f, length (d f) = length (d0 f) /\ forall i, nth_error (d f) i = nth_error (d0 f) i \/ exists ft fake, In (f, i, ft, fake) X.
Lemma set_default_differs X d d0 f i v : differs_at X d d0 -> (exists ft fake, In (f, i, ft, fake) X) -> differs_at X (set_default f i v d) d0.
Proof.
  intros H Hx g. unfold set_default. destruct (Nat.eqb_spec g f) as [->|N]; [|apply H]. rewrite replace_nth_len. split; [apply H|]. intros j.
  destruct (Nat.eq_dec i j) as [<-|Nj]; [right; exact Hx|]. rewrite replace_nth_other by exact Nj. apply H.
Qed.
Lemma patch_defaults_differs X l : forall d d0, incl l X -> differs_at X d d0 -> differs_at X (patch_defaults l d) d0.
Proof.
  induction l as [|[[[f i] ft] fake] l IH]; intros d d0 Hi H; [exact H|]. cbn. apply IH; [intros x Hx; apply Hi; right; exact Hx|].
  apply set_default_differs; [exact H|]. exists ft, fake. apply Hi. left. reflexivity.
Qed.
Lemma unset_defaults_gives l : forall d d0, (forall f i ft fake, In (f, i, ft, fake) l -> nth_error (d0 f) i = Some ft) -> differs_at l d d0 -> forall f, unset_defaults l d f = d0 f.
Proof.
  induction l as [|[[[f i] ft] fake] l IH]; intros d d0 Hok H g.
  - cbn. destruct (H g) as [Hl Hn]. apply nth_ext with (d := VNone) (d' := VNone); [exact Hl|]. intros n Hlt.
    destruct (Hn n) as [E|(? & ? & [])]. apply nth_error_nth' with (d := VNone) in Hlt. rewrite E in Hlt. symmetry. apply nth_error_nth, Hlt.
  - cbn [unset_defaults]. apply IH; [intros; eapply Hok; right; eassumption|]. intros h. unfold set_default. destruct (Nat.eqb_spec h f) as [->|N].
    + rewrite replace_nth_len. split; [apply H|]. intros j. destruct (Nat.eq_dec i j) as [<-|Nj].
      * left. rewrite replace_nth_same; [symmetry; apply (Hok f i ft fake); left; reflexivity|]. destruct (H f) as [Hl _]. rewrite Hl. apply nth_error_Some. rewrite (Hok f i ft fake) by (left; reflexivity). discriminate.
      * rewrite replace_nth_other by exact Nj. destruct (H f) as [_ Hn]. destruct (Hn j) as [E|(ft' & fk' & [K|K])]; [auto|injection K as -> -> ->; congruence|right; eauto].
    + destruct (H h) as [Hl Hn]. split; [exact Hl|]. intros j. destruct (Hn j) as [E|(ft' & fk' & [K|K])]; [auto|injection K as -> -> ->; congruence|right; eauto].
Qed.

(** ** sys.modules *)
Definition meq (m m' : str -> option value) : Prop := forall n, m n = m' n.
Lemma set_mod_same m n v : set_mod m n v n = v.
Proof. unfold set_mod. rewrite str_eqb_refl. reflexivity. Qed.
Lemma set_mod_other m n v x : x <> n -> set_mod m n v x = m x.
Proof. intros H. unfold set_mod. destruct (str_eqb x n) eqn:E; [apply str_eqb_eq in E; contradiction|reflexivity]. Qed.
Lemma set_mods_out l : forall m n, ~ In n (map fst l) -> set_mods l m n = m n.
Proof. induction l as [|[k v] l IH]; intros m n H; [reflexivity|]. cbn in *. rewrite IH by tauto. apply set_mod_other. intros ->. apply H. auto. Qed.
Lemma set_mods_in l : forall m m' n, In n (map fst l) -> set_mods l m n = set_mods l m' n /\ set_mods l m n <> None.
Proof.
  induction l as [|[k v] l IH]; intros m m' n H; [destruct H|]. cbn in *. destruct (in_dec (list_eq_dec ascii_dec) n (map fst l)) as [Hi|Hi].
  - destruct (IH (set_mod m k (Some v)) (set_mod m' k (Some v)) n Hi) as [A B]. auto.
  - rewrite !set_mods_out by exact Hi. destruct H as [->|H]; [|contradiction]. rewrite !set_mod_same. split; [reflexivity|discriminate].
Qed.
Lemma saved_in S g m n : In n (map fst (saved_modules S g m)) <-> In n (map fst (s_fakes S g)) /\ m n <> None.
Proof.
  unfold saved_modules. induction (s_fakes S g) as [|[k v] l IH]; cbn; [tauto|]. rewrite map_app, in_app_iff, IH. clear IH. destruct (m k) as [w|] eqn:E; cbn; [|intuition congruence].
  split; [intros [[->|[]]|[]]; split; auto; congruence|]. intros [[->|H] K]; auto.
Qed.
Lemma saved_value S g m n : In n (map fst (saved_modules S g m)) -> forall m', set_mods (saved_modules S g m) m' n = m n.
Proof.
  unfold saved_modules. induction (s_fakes S g) as [|[k v] l IH]; cbn; intros H m'; [destruct H|].
  destruct (m k) as [w|] eqn:E; cbn in *; [|apply IH, H]. destruct (in_dec (list_eq_dec ascii_dec) n (map fst (flat_map (fun nv : str * value => match m (fst nv) with Some v => [(fst nv, v)] | None => [] end) l))) as [Hi|Hi].
  - apply IH, Hi.
  - rewrite set_mods_out by exact Hi. destruct H as [->|H]; [rewrite set_mod_same; auto|contradiction].
Qed.
Lemma del_mods_in l : forall m n, In n l -> del_mods l m n = None.
Proof.
  induction l as [|k l IH]; intros m n H; [destruct H|]. cbn. destruct (in_dec (list_eq_dec ascii_dec) n l) as [Hi|Hi]; [apply IH, Hi|].
  destruct H as [->|H]; [|contradiction]. clear IH. revert m Hi. induction l as [|k l IH2]; intros m Hi; [apply set_mod_same|]. cbn in *.
  assert (E : del_mods l (set_mod (set_mod m n None) k None) n = del_mods l (set_mod m n None) n).
  { assert (G : forall l m m', m n = m' n -> del_mods l m n = del_mods l m' n); [|apply G, set_mod_other; intros E; apply Hi; auto].
    clear. induction l as [|k l IH]; intros m m' E; [exact E|]. cbn. apply IH. unfold set_mod. destruct (str_eqb n k); auto. }
  rewrite E. apply IH2. tauto.
Qed.
Lemma del_mods_out l : forall m n, ~ In n l -> del_mods l m n = m n.
Proof. induction l as [|k l IH]; intros m n H; [reflexivity|]. cbn in *. rewrite IH by tauto. apply set_mod_other. intros ->. apply H. auto. Qed.

(** ** The invariant *)
Section Inv.
Variables (S : setup) (I0 : interp) (reloads : list str).
Hypothesis HS : setup_ok S I0.
(** names whose entry in sys.modules is not given back *)
Definition lost (n : str) : Prop := (In n (fake_names S) /\ i_modules I0 n = None) \/ In n reloads.
Record PI (i : interp) (p : patcher) (r : ref) : Prop := {
  pi_dicts : deq (undo (p_stubs p) (i_dicts i)) (fst r);
  pi_off : p_patching p = false -> p_stubs p = [];
  pi_found : p_gen p <> 0 -> found_ok S (p_gen p) (fst r);
  pi_stubs : forall o a, In (o, a) (map fst (p_stubs p)) -> ~ special S o a;
  pi_defaults : p_patching p = true -> differs_at (s_defargs S (p_gen p)) (i_defaults i) (i_defaults I0);
  pi_defaults_off : p_patching p = false -> forall f, i_defaults i f = i_defaults I0 f;
  pi_meta : i_meta i = if p_patching p then s_dyn S :: i_meta I0 else i_meta I0;
  pi_mods : p_patching p = true -> forall n, ~ lost n -> del_mods (p_loaded p) (set_mods (p_saved p) (i_modules i)) n = snd r n;
  pi_saved : p_patching p = true -> forall n, In n (map fst (p_saved p)) -> In n (fake_names S);
  pi_loaded : p_patching p = true -> forall n, In n (p_loaded p) -> ~ In n (fake_names S);
  pi_fakes : p_patching p = true -> forall n, In n (fake_names S) -> i_modules i n <> None;
  pi_mods_off : p_patching p = false -> forall n, ~ lost n -> i_modules i n = snd r n;
  pi_had : forall n, i_modules I0 n <> None -> snd r n = i_modules I0 n
}.
Lemma PI_init : PI I0 new_patcher (i_dicts I0, i_modules I0).
Proof. constructor; cbn; auto; try discriminate; try congruence; intros ? ? []. Qed.
Lemma upd_found g d o a v : plain v -> found_ok S g d -> found_ok S g (upd d o a v).
Proof.
  intros Hp H o' a' v' Hin. destruct (H o' a' v' Hin) as (A & B & C & x & D & E). split; [exact A|]. split; [exact B|]. split; [exact C|].
  destruct (key_dec (o', a') (o, a)) as [Ek|N]; [injection Ek as -> ->; exists v; split; [apply upd_same|exact Hp]|exists x; rewrite upd_other by exact N; auto].
Qed.
Lemma special_found g d d' : (forall o a, ~ special S o a -> d' o a = d o a) -> found_ok S g d -> found_ok S g d'.
Proof.
  intros Hd H o a v Hin. destruct (H o a v Hin) as (A & B & C & x & D & E). split; [exact A|]. split; [exact B|]. split; [exact C|]. exists x. rewrite Hd by exact C. auto.
Qed.
Lemma start_PI i p r : PI i p r -> p_gen p <> 0 -> exists i' p', start_patching S (i, p) = inl (i', p') /\ PI i' p' r /\ p_patching p' = true /\ p_gen p' = p_gen p /\
  (p_patching p = false -> (forall o a, In (o, a) (map fst (p_stubs p')) <-> In (o, a) (map fst (patches S (p_gen p)))) /\
     (forall o a v, In (o, a, v) (patches S (p_gen p)) -> NoDup (map fst (patches S (p_gen p))) -> i_dicts i' o a = Some v) /\
     (forall n v, In (n, v) (s_fakes S (p_gen p)) -> NoDup (fake_names S) -> i_modules i' n = Some v) /\
     (forall o a, ~ In (o, a) (map fst (patches S (p_gen p))) -> i_dicts i' o a = i_dicts i o a)).
Proof.
  intros P Hg. unfold start_patching. destruct (p_patching p) eqn:Hp.
  { exists i, p. split; [reflexivity|]. split; [exact P|]. split; [exact Hp|]. split; [reflexivity|]. discriminate. }
  rewrite (proj2 (Nat.eqb_neq _ _) Hg). pose proof (pi_off _ _ _ P Hp) as Es. pose proof (pi_dicts _ _ _ P) as Ed. rewrite Es in Ed. cbn [undo] in Ed.
  pose proof (pi_found _ _ _ P Hg) as Hf.
  destruct (smart_sets_ok S (patches S (p_gen p)) (so_mro _ _ HS) (st i p)) as (s' & E & U & K & N & V).
  { intros o a v Hin. destruct (Hf o a v Hin) as (A & B & _ & x & C & D). split; [exact A|]. split; [exact B|]. exists x. cbn [st st_dicts]. rewrite (Ed o a). auto. }
  rewrite E. eexists _, _. split; [reflexivity|]. cbn [st st_stubs st_dicts] in *. rewrite Es in *. cbn [undo map] in *.
  split; [|split; [reflexivity|split; [reflexivity|]]].
  - constructor; cbn [p_stubs p_patching p_gen p_loaded p_saved i_dicts i_defaults i_modules i_meta]; auto; try discriminate.
    + intros x y. rewrite (U x y). apply Ed.
    + intros o a Hin. apply K in Hin. destruct Hin as [Hin|[]]. apply in_map_iff in Hin. destruct Hin as ([[o' a'] v] & Ek & Hin). cbn in Ek. injection Ek as -> ->. apply (Hf _ _ _ Hin).
    + intros _. apply patch_defaults_differs; [intros x Hx; exact Hx|]. intros f. rewrite (pi_defaults_off _ _ _ P Hp f). auto.
    + rewrite (pi_meta _ _ _ P), Hp. reflexivity.
    + intros _ n Hn. cbn [del_mods]. destruct (in_dec (list_eq_dec ascii_dec) n (map fst (saved_modules S (p_gen p) (i_modules i)))) as [Hi|Hi].
      * rewrite (saved_value _ _ _ _ Hi). apply (pi_mods_off _ _ _ P Hp n Hn).
      * rewrite set_mods_out by exact Hi. rewrite saved_in in Hi. rewrite (so_names _ _ HS) in Hi.
        destruct (in_dec (list_eq_dec ascii_dec) n (fake_names S)) as [Hfn|Hfn].
        -- exfalso. apply Hn. left. split; [exact Hfn|]. destruct (i_modules I0 n) as [v|] eqn:E0; [|reflexivity]. exfalso. apply Hi. split; [exact Hfn|].
           rewrite (pi_mods_off _ _ _ P Hp n Hn), (pi_had _ _ _ P n) by congruence. congruence.
        -- rewrite set_mods_out by (rewrite (so_names _ _ HS); exact Hfn). apply (pi_mods_off _ _ _ P Hp n Hn).
    + intros _ n Hi. apply saved_in in Hi. rewrite (so_names _ _ HS) in Hi. apply Hi.
    + intros _ n Hi. apply (set_mods_in _ (i_modules i) (i_modules i)). rewrite (so_names _ _ HS). exact Hi.
    + apply (pi_had _ _ _ P).
  - intros _. split; [|split; [|split]].
    + intros o a. cbn [p_stubs]. rewrite K. split; [intros [K1|[]]; exact K1|auto].
    + intros o a v Hin Hnd. apply V; assumption.
    + intros n v Hin Hnd. cbn [i_modules]. rewrite <- (so_names _ _ HS (p_gen p)) in Hnd. clear - Hin Hnd. revert Hin Hnd. generalize (i_modules i).
      induction (s_fakes S (p_gen p)) as [|[k w] l IH]; intros m Hin Hnd; [destruct Hin|]. cbn in *. apply NoDup_cons_iff in Hnd. destruct Hnd as [H1 H2]. destruct Hin as [Ek|Hin].
      * injection Ek as -> ->. rewrite set_mods_out by exact H1. apply set_mod_same.
      * apply IH; assumption.
    + intros o a Hn. apply N, Hn.
Qed.
Lemma stop_PI i p r : PI i p r -> PI (fst (stop_patching S (i, p))) (snd (stop_patching S (i, p))) r /\ p_patching (snd (stop_patching S (i, p))) = false /\ p_gen (snd (stop_patching S (i, p))) = p_gen p.
Proof.
  intros P. unfold stop_patching. destruct (p_patching p) eqn:Hp; [|split; [exact P|split; [exact Hp|reflexivity]]]. cbn [fst snd]. split; [|split; reflexivity].
  constructor; cbn [p_stubs p_patching p_gen p_loaded p_saved i_dicts i_defaults i_modules i_meta undo smart_unset_all st st_dicts st_stubs]; auto; try discriminate.
  - apply (pi_dicts _ _ _ P).
  - apply (pi_found _ _ _ P).
  - intros _. apply unset_defaults_gives; [intros; eapply (so_defargs _ _ HS); eassumption|apply (pi_defaults _ _ _ P Hp)].
  - rewrite (pi_meta _ _ _ P), Hp. reflexivity.
  - intros _. apply (pi_mods _ _ _ P Hp).
  - apply (pi_had _ _ _ P).
Qed.
Ltac keepg := cbn; let K := fresh in intros [K|K]; [discriminate K|exact K].
Lemma event_PI e i p r : PI i p r -> fine_event S e p r -> (forall n, e = Reload n -> In n reloads) ->
  exists i' p', event_step S e (i, p) = inl (i', p') /\ PI i' p' (ref_step S e p r) /\ (e = SetUp \/ p_gen p <> 0 -> p_gen p' <> 0).
Proof.
  intros P F HL. destruct e as [| | | |n v|n|o a v]; cbn [event_step ref_step fine_event] in *.
  - (* SetUp *) unfold set_up.
    set (i1 := mki (st_dicts (smart_unset_all (st i p))) (i_defaults i) (i_modules i) (i_meta i)). set (p1 := mkp (Datatypes.S (p_gen p)) (p_patching p) [] (p_saved p) (p_loaded p)).
    assert (P1 : PI i1 p1 r).
    { constructor; cbn [i1 p1 p_stubs p_patching p_gen p_loaded p_saved i_dicts i_defaults i_modules i_meta undo smart_unset_all st st_dicts st_stubs]; auto; try apply P.
      - intros Hp f. destruct (pi_defaults _ _ _ P Hp f) as [A B]. split; [exact A|]. intros j. destruct (B j) as [E|(ft & fk & Hin)]; [auto|right]. exists ft, fk. apply (so_known _ _ HS), Hin. }
    destruct (start_PI i1 p1 r P1 ltac:(discriminate)) as (i2 & p2 & E & P2 & Hp2 & Hg2 & _). rewrite E.
    eexists _, _. split; [reflexivity|]. split; [|intros _; rewrite Hg2; discriminate]. destruct P2 as [Q1 Q2 Q3 Q4 Q5 Q6 Q7 Q8 Q9 Q10 Q11 Q12 Q13].
    constructor; cbn [i_dicts i_defaults i_modules i_meta fst snd]; auto.
    + assert (N1 : ~ In (s_linecache S, L "open") (map fst (p_stubs p2))) by (intros K; apply (Q4 _ _ K); left; reflexivity).
      assert (N2 : ~ In (s_tokenize S, L "_builtin_open") (map fst (p_stubs p2))) by (intros K; apply (Q4 _ _ K); right; reflexivity).
      intros x y. rewrite (undo_upd_out _ _ _ _ (s_open S) N2 x y). apply upd_deq. intros x' y'. rewrite (undo_upd_out _ _ _ _ (s_open S) N1 x' y'). apply upd_deq, Q1.
    + intros Hg. eapply special_found; [|apply Q3, Hg]. intros o a Hs. rewrite !upd_other; [reflexivity| |]; intros K; apply Hs; [left|right]; exact K.
  - (* TearDown *) destruct (stop_PI i p r P) as (A & B & C). destruct (stop_patching S (i, p)) as [i' p']. exists i', p'. split; [reflexivity|]. cbn [fst snd] in *. split; [exact A|]. rewrite C. intros [K|K]; [discriminate K|exact K].
  - (* Pause *) destruct (stop_PI i p r P) as (A & B & C). destruct (stop_patching S (i, p)) as [i' p']. exists i', p'. split; [reflexivity|]. cbn [fst snd] in *. split; [exact A|]. rewrite C. intros [K|K]; [discriminate K|exact K].
  - (* Resume *) destruct (start_PI i p r P F) as (i2 & p2 & E & P2 & Hp2 & Hg2 & _). exists i2, p2. split; [exact E|]. split; [exact P2|]. rewrite Hg2. intros _. exact F.
  - (* Import *) unfold import_. destruct P as [Q1 Q2 Q3 Q4 Q5 Q6 Q7 Q8 Q9 Q10 Q11 Q12 Q13]. destruct (p_patching p) eqn:Hp.
    + destruct (i_modules i n) as [w|] eqn:En; [eexists _, _; split; [reflexivity|]; split; [constructor; rewrite ?Hp; auto|keepg]|].
      assert (Nf : ~ In n (fake_names S)) by (intros K; apply (Q11 eq_refl n K En)).
      assert (Hf : is_fake S p n = false). { unfold is_fake. destruct (assoc n (s_fakes S (p_gen p))) as [w|] eqn:Ea; [|reflexivity]. exfalso. apply Nf. rewrite <- (so_names _ _ HS (p_gen p)). apply assoc_In in Ea. apply in_map_iff. exists (n, w). auto. }
      rewrite Hf. eexists _, _. split; [reflexivity|]. split; [|keepg].
      constructor; cbn [p_stubs p_patching p_gen p_loaded p_saved i_dicts i_defaults i_modules i_meta]; auto; try discriminate.
      * intros _ m Hm. cbn [del_mods]. destruct (list_eq_dec ascii_dec m n) as [->|Nm].
        -- rewrite <- (Q8 eq_refl n Hm). assert (Ns : ~ In n (map fst (p_saved p))) by (intros K; apply Nf, (Q9 eq_refl), K).
           destruct (in_dec (list_eq_dec ascii_dec) n (p_loaded p)) as [Hl|Hl]; [rewrite !del_mods_in by exact Hl; reflexivity|]. rewrite !del_mods_out by exact Hl. rewrite set_mod_same, set_mods_out by exact Ns. congruence.
        -- rewrite <- (Q8 eq_refl m Hm). destruct (in_dec (list_eq_dec ascii_dec) m (p_loaded p)) as [Hl|Hl]; [rewrite !del_mods_in by exact Hl; reflexivity|]. rewrite !del_mods_out by exact Hl. rewrite set_mod_other by exact Nm.
           destruct (in_dec (list_eq_dec ascii_dec) m (map fst (p_saved p))) as [Hs|Hs]; [apply set_mods_in, Hs|]. rewrite !set_mods_out by exact Hs. apply set_mod_other, Nm.
      * intros _ m [<-|Hm]; auto.
      * intros _ m Hm. rewrite set_mod_other; [auto|]. intros ->. contradiction.
    + assert (R : forall o : option value, (match o with Some _ => r | None => (fst r, set_mod (snd r) n (Some v)) end) = (fst r, match o with Some _ => snd r | None => set_mod (snd r) n (Some v) end)) by (intros [|]; [destruct r|]; reflexivity).
      rewrite R. destruct (i_modules i n) as [w|] eqn:En.
      * eexists _, _. split; [reflexivity|]. split; [|keepg]. constructor; cbn [fst snd]; rewrite ?Hp; auto; try discriminate.
        -- intros _ m Hm. destruct (snd r n) eqn:Er; [auto|]. destruct (list_eq_dec ascii_dec m n) as [->|Nm]; [pose proof (Q12 eq_refl n Hm); congruence|rewrite set_mod_other by exact Nm; auto].
        -- intros m Hm. destruct (snd r n) eqn:Er; [auto|]. destruct (list_eq_dec ascii_dec m n) as [->|Nm]; [pose proof (Q13 n Hm); congruence|rewrite set_mod_other by exact Nm; auto].
      * eexists _, _. split; [reflexivity|]. split; [|keepg]. constructor; cbn [fst snd p_stubs p_patching p_gen p_loaded p_saved i_dicts i_defaults i_modules i_meta]; rewrite ?Hp; auto; try discriminate.
        -- intros _ m Hm. destruct (list_eq_dec ascii_dec m n) as [->|Nm].
           ++ rewrite set_mod_same. rewrite <- (Q12 eq_refl n Hm), En. rewrite set_mod_same. reflexivity.
           ++ rewrite set_mod_other by exact Nm. destruct (snd r n); [auto|rewrite set_mod_other by exact Nm; auto].
        -- intros m Hm. destruct (snd r n) eqn:Er; [auto|]. destruct (list_eq_dec ascii_dec m n) as [->|Nm]; [pose proof (Q13 n Hm); congruence|rewrite set_mod_other by exact Nm; auto].
  - (* Reload *) unfold reload. destruct (i_modules i n) as [w|] eqn:En; [|eexists _, _; split; [reflexivity|]; split; [exact P|keepg]].
    destruct (p_patching p && negb (is_fake S p n)) eqn:Hb; [|eexists _, _; split; [reflexivity|]; split; [exact P|keepg]].
    apply andb_true_iff in Hb. destruct Hb as [Hp Hf]. apply negb_true_iff in Hf. destruct P as [Q1 Q2 Q3 Q4 Q5 Q6 Q7 Q8 Q9 Q10 Q11 Q12 Q13]. rewrite Hp in Q7.
    eexists _, _. split; [reflexivity|]. split; [|keepg].
    constructor; cbn [p_stubs p_patching p_gen p_loaded p_saved i_dicts i_defaults i_modules i_meta]; auto; try discriminate.
    + intros _ m Hm. rewrite <- (Q8 Hp m Hm). assert (Nm : m <> n) by (intros ->; apply Hm; right; apply HL; reflexivity).
      destruct (in_dec (list_eq_dec ascii_dec) m (p_loaded p)) as [Hl|Hl]; [rewrite !del_mods_in by (cbn; auto); reflexivity|]. rewrite !del_mods_out; [reflexivity|exact Hl|intros [K|K]; [congruence|contradiction]].
    + intros _ m [<-|Hm]; [|auto]. intros K. unfold is_fake in Hf. rewrite <- (so_names _ _ HS (p_gen p)) in K. destruct (assoc n (s_fakes S (p_gen p))) eqn:Ea; [discriminate Hf|]. apply (proj1 (assoc_None _ _) Ea K).
  - (* SetAttr *) eexists _, _. split; [reflexivity|]. split; [|keepg]. destruct P as [Q1 Q2 Q3 Q4 Q5 Q6 Q7 Q8 Q9 Q10 Q11 Q12 Q13].
    destruct (in_dec key_dec (o, a) (map fst (p_stubs p))) as [Hi|Hi]; constructor; cbn [fst snd i_dicts i_defaults i_modules i_meta]; auto.
    + intros x y. rewrite (undo_upd_in _ _ _ _ v Hi x y). apply Q1.
    + intros x y. rewrite (undo_upd_out _ _ _ _ v Hi x y). apply upd_deq, Q1.
    + intros Hg. apply upd_found; auto.
Qed.
End Inv.

(** ** C49 *)
Definition reloaded (l : list event) : list str := flat_map (fun e => match e with Reload n => [n] | _ => [] end) l.
Lemma events_PI S I0 reloads l : setup_ok S I0 -> forall i p r, PI S I0 reloads i p r -> fine_events S l (i, p) r -> incl (reloaded l) reloads ->
  exists i' p', events S l (i, p) = inl (i', p') /\ PI S I0 reloads i' p' (ref_run S l (i, p) r).
Proof.
  intros HS. induction l as [|e l IH]; intros i p r P F Hr; [exists i, p; split; [reflexivity|exact P]|]. destruct F as [F1 F2]. cbn [snd] in *.
  destruct (event_PI S I0 reloads HS e i p r P F1) as (i1 & p1 & E & P1 & _).
  { intros n ->. apply Hr. cbn. auto. }
  cbn [events ref_run]. rewrite E. apply IH; [exact P1|apply F2, E|]. intros n Hn. apply Hr. unfold reloaded. cbn [flat_map]. apply in_or_app. right. exact Hn.
Qed.
(** After any history of setUp, pause, resume, tearDown, assignments and
    imports, none of which fails: whenever patching is off, the attributes of
    all modules, the default arguments, sys.meta_path and - but for the names
    that are lost - sys.modules are those of an interpreter without a Patcher. *)
Theorem C49_reference_partial : forall S I0 l, setup_ok S I0 ->
  let r0 := (i_dicts I0, i_modules I0) in fine_events S l (I0, new_patcher) r0 ->
  exists i p, events S l (I0, new_patcher) = inl (i, p) /\
  (p_patching p = false -> let r := ref_run S l (I0, new_patcher) r0 in
    (forall o a, i_dicts i o a = fst r o a) /\ (forall f, i_defaults i f = i_defaults I0 f) /\ i_meta i = i_meta I0 /\
    (forall n, ~ (In n (fake_names S) /\ i_modules I0 n = None) -> ~ In n (reloaded l) -> i_modules i n = snd r n)).
Proof.
  intros S I0 l HS r0 F. destruct (events_PI S I0 (reloaded l) l HS I0 new_patcher r0 (PI_init S I0 _) F (fun n H => H)) as (i & p & E & P).
  exists i, p. split; [exact E|]. intros Hp r. fold r in P. pose proof (pi_dicts _ _ _ _ _ _ P) as Q1. rewrite (pi_off _ _ _ _ _ _ P Hp) in Q1.
  split; [exact Q1|]. split; [apply (pi_defaults_off _ _ _ _ _ _ P Hp)|]. split; [rewrite (pi_meta _ _ _ _ _ _ P), Hp; reflexivity|].
  intros n H1 H2. apply (pi_mods_off _ _ _ _ _ _ P Hp). intros [K|K]; auto.
Qed.
(** The life of a Patcher: any sequence of the four calls after a setUp.
    Whenever it is paused or torn down, the interpreter is as it was before,
    but for linecache.open, tokenize._builtin_open and fake modules whose
    name was not in sys.modules. *)
Definition life (e : event) : Prop := e = SetUp \/ e = TearDown \/ e = Pause \/ e = Resume.
Theorem C49_life_partial : forall S I0 l, setup_ok S I0 -> (forall g, found_ok S g (i_dicts I0)) -> Forall life l ->
  exists i p, events S (SetUp :: l) (I0, new_patcher) = inl (i, p) /\
  (p_patching p = false ->
    (forall o a, ~ special S o a -> i_dicts i o a = i_dicts I0 o a) /\ (forall f, i_defaults i f = i_defaults I0 f) /\ i_meta i = i_meta I0 /\
    (forall n, ~ (In n (fake_names S) /\ i_modules I0 n = None) -> i_modules i n = i_modules I0 n)).
Proof.
  intros S I0 l HS HF Hl. set (r0 := (i_dicts I0, i_modules I0)).
  assert (G : forall l ip r, Forall life l -> (p_gen (snd ip) <> 0 \/ exists l', l = SetUp :: l') -> (forall o a, ~ special S o a -> fst r o a = i_dicts I0 o a) ->
    PI S I0 [] (fst ip) (snd ip) r -> fine_events S l ip r /\ snd (ref_run S l ip r) = snd r /\ forall o a, ~ special S o a -> fst (ref_run S l ip r) o a = i_dicts I0 o a).
  { clear l Hl. induction l as [|e l IH]; intros [i p] r Hl Hg Hr P; [split; [exact Logic.I|split; [reflexivity|exact Hr]]|]. inversion Hl as [|? ? He Hl']. subst. cbn [fst snd] in *.
    assert (F : fine_event S e p r).
    { destruct He as [->|[->|[->| ->]]]; cbn; auto.
      - eapply special_found; [|apply HF]. exact Hr.
      - destruct Hg as [Hg|(l' & K)]; [exact Hg|discriminate K]. }
    destruct (event_PI S I0 [] HS e i p r P F) as (i1 & p1 & E & P1 & Hg1).
    { intros n ->. destruct He as [K|[K|[K|K]]]; discriminate K. }
    assert (R1 : forall o a, ~ special S o a -> fst (ref_step S e p r) o a = i_dicts I0 o a).
    { intros o a Hs. destruct He as [->|[->|[->| ->]]]; cbn [ref_step fst]; auto. rewrite !upd_other; [auto| |]; intros K; apply Hs; [left|right]; exact K. }
    assert (R2 : snd (ref_step S e p r) = snd r) by (destruct He as [->|[->|[->| ->]]]; reflexivity).
    assert (Hg2 : p_gen p1 <> 0). { apply Hg1. destruct Hg as [Hg|(l' & K)]; [right; exact Hg|left; injection K as K _; exact K]. }
    destruct (IH (i1, p1) (ref_step S e p r) Hl' (or_introl Hg2) R1 P1) as (A & B & C).
    split; [split; [exact F|]|].
    - intros ip' E'. cbn [snd]. rewrite E in E'. injection E' as <-. exact A.
    - cbn [ref_run]. rewrite E. split; [rewrite <- R2; exact B|exact C]. }
  destruct (G (SetUp :: l) (I0, new_patcher) r0) as (F & R1 & R2); [constructor; [left; reflexivity|exact Hl]|right; eauto|auto|apply PI_init|].
  destruct (C49_reference_partial S I0 (SetUp :: l) HS F) as (i & p & E & K). exists i, p. split; [exact E|]. intros Hp. destruct (K Hp) as (K1 & K2 & K3 & K4).
  split; [|split; [exact K2|split; [exact K3|]]].
  - intros o a Hs. rewrite K1. apply R2, Hs.
  - intros n Hn. rewrite K4; [fold r0; rewrite R1; reflexivity|exact Hn|]. intros K5. unfold reloaded in K5. apply in_flat_map in K5. destruct K5 as (e & He & Hne). destruct He as [<-|He]; [destruct Hne|].
    rewrite Forall_forall in Hl. destruct (Hl e He) as [->|[->|[->| ->]]]; destruct Hne.
Qed.
(** While patching is on, the program sees the fakes: right after setUp (of a
    Patcher that was not patching) or resume, every attribute found has its fake,
    every name of a fake module imports it, and the attributes not found are untouched. *)
Theorem C49_patched : forall S I0 l e i p i' p', setup_ok S I0 ->
  let r0 := (i_dicts I0, i_modules I0) in fine_events S (l ++ [e]) (I0, new_patcher) r0 ->
  events S l (I0, new_patcher) = inl (i, p) -> p_patching p = false -> e = SetUp \/ e = Resume ->
  event_step S e (i, p) = inl (i', p') ->
  let g := match e with SetUp => Datatypes.S (p_gen p) | _ => p_gen p end in
  NoDup (map fst (patches S g)) -> NoDup (fake_names S) ->
  (forall o a v, In (o, a, v) (patches S g) -> i_dicts i' o a = Some v) /\
  (forall n v, In (n, v) (s_fakes S g) -> i_modules i' n = Some v) /\
  (forall o a, ~ In (o, a) (map fst (patches S g)) -> ~ special S o a -> i_dicts i' o a = i_dicts i o a).
Proof.
  intros S I0 l e i p i' p' HS r0 F Ev Hp He E g N1 N2.
  assert (X : forall l ip r ip1, fine_events S (l ++ [e]) ip r -> events S l ip = inl ip1 -> fine_events S l ip r /\ fine_event S e (snd ip1) (ref_run S l ip r)).
  { clear. induction l as [|x l IH]; intros ip r ip1 F E; cbn in *; [injection E as <-; tauto|]. destruct F as [F1 F2]. destruct (event_step S x ip) as [ip'|] eqn:Ex; [|discriminate E].
    destruct (IH ip' _ ip1 (F2 _ eq_refl) E) as [A B]. split; [|exact B]. split; [exact F1|]. intros ip2 E2. injection E2 as <-. exact A. }
  destruct (X _ _ _ _ F Ev) as [F1 F2]. cbn [snd] in F2.
  destruct (events_PI S I0 (reloaded l) l HS I0 new_patcher r0 (PI_init S I0 _) F1 (fun n H => H)) as (i2 & p2 & E2 & P). rewrite Ev in E2. injection E2 as <- <-.
  set (r := ref_run S l (I0, new_patcher) r0) in *.
  assert (Y : forall i1 p1, PI S I0 (reloaded l) i1 p1 r -> p_patching p1 = false -> p_gen p1 = g -> g <> 0 -> forall i3 p3, start_patching S (i1, p1) = inl (i3, p3) ->
    (forall o a v, In (o, a, v) (patches S g) -> i_dicts i3 o a = Some v) /\ (forall n v, In (n, v) (s_fakes S g) -> i_modules i3 n = Some v) /\ (forall o a, ~ In (o, a) (map fst (patches S g)) -> i_dicts i3 o a = i_dicts i1 o a)).
  { intros i1 p1 P1 Hp1 Hg1 Hg i3 p3 Es. destruct (start_PI S I0 _ HS i1 p1 r P1 ltac:(congruence)) as (i4 & p4 & E4 & _ & _ & _ & K). rewrite Es in E4. injection E4 as <- <-.
    destruct (K Hp1) as (_ & K2 & K3 & K4). rewrite Hg1 in *. split; [intros o a v Hin; apply K2; assumption|]. split; [intros n v Hin; apply K3; assumption|exact K4]. }
  destruct He as [-> | ->].
  - cbn [event_step fine_event] in *. unfold set_up in E.
    set (i1 := mki (st_dicts (smart_unset_all (st i p))) (i_defaults i) (i_modules i) (i_meta i)) in *. set (p1 := mkp (Datatypes.S (p_gen p)) (p_patching p) [] (p_saved p) (p_loaded p)) in *.
    destruct (start_patching S (i1, p1)) as [[i3 p3]|] eqn:Es; [|discriminate E]. injection E as <- <-.
    assert (P1 : PI S I0 (reloaded l) i1 p1 r).
    { destruct P as [Q1 Q2 Q3 Q4 Q5 Q6 Q7 Q8 Q9 Q10 Q11 Q12 Q13]. constructor; cbn [i1 p1 p_stubs p_patching p_gen p_loaded p_saved i_dicts i_defaults i_modules i_meta undo smart_unset_all st st_dicts st_stubs]; auto.
      - rewrite Hp. discriminate. }
    destruct (Y i1 p1 P1 Hp eq_refl ltac:(discriminate) i3 p3 Es) as (A & B & C). cbn [i_dicts i_modules]. split; [|split].
    + intros o a v Hin. destruct (F2 o a v Hin) as (_ & _ & Hs & _). rewrite !upd_other; [apply A, Hin| |]; intros K; apply Hs; [left|right]; exact K.
    + exact B.
    + intros o a Hn Hs. rewrite !upd_other; [|intros K; apply Hs; left; exact K|intros K; apply Hs; right; exact K]. rewrite C by exact Hn. cbn [i1 i_dicts smart_unset_all st st_dicts st_stubs]. rewrite (pi_off _ _ _ _ _ _ P Hp). reflexivity.
  - cbn [event_step fine_event] in *. destruct (Y i p P Hp eq_refl F2 i' p' E) as (A & B & C). split; [exact A|]. split; [exact B|]. intros o a Hn _. apply C, Hn.
Qed.

(** ** A concrete case: a module 0 with "import os" and "from os import stat",
    a function 7 with os.stat as second default argument *)
Definition c49_setup : setup := {|
  s_world := fun _ => SModule;
  s_fs_modules := fun g => [(L "os", 0, L "os")];
  s_skipped := fun g => [(L "pathlib", 3, L "pathlib"); (L "os", 3, L "os")];
  s_functions := fun g => [(L "stat", VFun (500 + g), 0)];
  s_defargs := fun g => [(7, 1, VFun 5, VFun 600)];
  s_fakes := fun g => [(L "os", VObj (200 + g)); (L "Path", VObj (300 + g))];
  s_unfaked := fun g => [(L "pathlib", VObj (400 + g))];
  s_dyn := 9; s_linecache := 1; s_tokenize := 2; s_open := VFun 1 |}.
Definition c49_dicts : dicts := fun o a =>
  if Nat.eqb o 0 && str_eqb a (L "os") then Some (VObj 100) else if Nat.eqb o 0 && str_eqb a (L "stat") then Some (VFun 5)
  else if Nat.eqb o 3 && str_eqb a (L "pathlib") then Some (VObj 101) else None.
Definition c49_interp : interp := mki c49_dicts (fun f => if Nat.eqb f 7 then [VObj 1; VFun 5] else [])
  (fun n => if str_eqb n (L "os") then Some (VObj 100) else if str_eqb n (L "json") then Some (VObj 50) else None) [1; 2].
Lemma c49_setup_ok : setup_ok c49_setup c49_interp.
Proof.
  constructor.
  - intros c m H. discriminate H.
  - reflexivity.
  - intros g f i ft fake [E|[]]. injection E as <- <- <- <-. reflexivity.
  - intros g x H. exact H.
Qed.
Lemma c49_found g : found_ok c49_setup g c49_dicts.
Proof.
  intros o a v H. cbn in H. destruct H as [E|[E|[E|[]]]]; injection E as <- <- <-;
    (split; [reflexivity|]); (split; [split; [discriminate|intros [f K]; discriminate K]|]); (split; [intros [K|K]; discriminate K|]); eexists; (split; [reflexivity|]); (split; [discriminate|intros [f K]; discriminate K]).
Qed.
Example C49_case : setup_ok c49_setup c49_interp /\ (forall g, found_ok c49_setup g (i_dicts c49_interp)) /\ Forall life [Pause; Pause; Resume; SetUp; TearDown; Resume; TearDown] /\
  match events c49_setup [SetUp; Pause; Resume] (c49_interp, new_patcher) with inl (i, p) => i_dicts i 0 (L "os") = Some (VObj 201) /\ i_dicts i 3 (L "pathlib") = Some (VObj 401) /\ i_defaults i 7 = [VObj 1; VFun 600] /\ i_meta i = [9; 1; 2] | inr _ => False end /\
  NoDup (map fst (patches c49_setup 1)) /\ NoDup (fake_names c49_setup) /\
  (let r0 := (i_dicts c49_interp, i_modules c49_interp) in
   fine_events c49_setup [SetUp; SetAttr 0 (L "os") (VObj 77); Import (L "xml") (VObj 51); Pause; SetAttr 0 (L "os") (VObj 78); Resume; TearDown] (c49_interp, new_patcher) r0).
Proof.
  split; [apply c49_setup_ok|]. split; [apply c49_found|]. split; [unfold life; repeat (apply Forall_cons; [auto|]); apply Forall_nil|].
  split; [vm_compute; repeat split|].
  split; [repeat (apply NoDup_cons; [intros K; repeat (destruct K as [K|K]; [discriminate K|]); destruct K|]); apply NoDup_nil|]. split; [repeat (apply NoDup_cons; [intros K; repeat (destruct K as [K|K]; [discriminate K|]); destruct K|]); apply NoDup_nil|].
  intros r0. assert (Pl : forall n, plain (VObj n)) by (intros n; split; [discriminate|intros [f K]; discriminate K]).
  assert (St : forall e l ip r ip1, event_step c49_setup e ip = inl ip1 -> fine_event c49_setup e (snd ip) r -> fine_events c49_setup l ip1 (ref_step c49_setup e (snd ip) r) -> fine_events c49_setup (e :: l) ip r).
  { intros e l ip r ip1 E F K. split; [exact F|]. intros ip' E'. rewrite E in E'. injection E' as <-. exact K. }
  do 7 (eapply St; [vm_compute; reflexivity|first [apply c49_found|apply Pl|exact Logic.I|cbn; discriminate]|]). exact Logic.I.
Qed.
(** a fake module whose name was not in sys.modules ("Path") stays there *)
Theorem C49_fake_stays_refuted : i_modules c49_interp (L "Path") = None /\
  match events c49_setup [SetUp; TearDown] (c49_interp, new_patcher) with inl (i, p) => p_patching p = false /\ i_modules i (L "Path") = Some (VObj 301) | inr _ => False end.
Proof. split; [reflexivity|]. vm_compute. repeat split. Qed.
(** a module that was loaded before and is reloaded by the test vanishes from sys.modules *)
Theorem C49_reload_refuted : i_modules c49_interp (L "json") = Some (VObj 50) /\
  match events c49_setup [SetUp; Reload (L "json"); TearDown] (c49_interp, new_patcher) with inl (i, p) => p_patching p = false /\ i_modules i (L "json") = None | inr _ => False end.
Proof. split; [reflexivity|]. vm_compute. repeat split. Qed.
(** linecache.open is left behind *)
Theorem C49_linecache_refuted : i_dicts c49_interp 1 (L "open") = None /\
  match events c49_setup [SetUp; TearDown] (c49_interp, new_patcher) with inl (i, p) => i_dicts i 1 (L "open") = Some (VFun 1) | inr _ => False end.
Proof. split; [reflexivity|]. vm_compute. repeat split. Qed.

Print Assumptions C49_reference_partial.
Print Assumptions C49_life_partial.
Print Assumptions C49_patched.
Print Assumptions C49_fake_stays_refuted.
Print Assumptions C49_reload_refuted.
Print Assumptions C49_linecache_refuted.
