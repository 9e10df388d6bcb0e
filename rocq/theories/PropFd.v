(** * C38, C39: file descriptors and handles.

    A handle ([wid]) is what open() and os.fdopen() return; [w_fd] is what its
    fileno() returns, [is_open] is "not closed".  A descriptor number is in use
    ([fd_used]) when the table of open files holds an entry for it. *)
From Verif Require Export FdThm OpsThm6.

(** ** Specification *)
Definition fileno (s : fs) (w : wid) : Z := w_fd (wr s w).
(** A session: a history whose calls on handles use handles that open() has
    returned before; [hs] are the handles returned so far and [A] says which
    other calls are admitted. *)
Definition handle_of (o : op) : option wid :=
  match o with
  | HRead w _ | HWrite w _ | HSeek w _ _ | HTell w | HTruncate w _ | HFlush w | HClose w => Some w
  | _ => None
  end.
Definition own (hs : list wid) (o : op) : Prop := forall w, handle_of o = Some w -> In w hs.
Definition returned (r : res out) : list wid := match r with Ok (RHandle w) => [w] | _ => [] end.
Inductive continues (A : op -> Prop) (s : fs) (hs : list wid) : fs -> list wid -> Prop :=
| co_nil : continues A s hs s hs
| co_step s1 hs1 o : continues A s hs s1 hs1 -> A o -> own hs1 o ->
    continues A s hs (snd (step o s1)) (hs1 ++ returned (fst (step o s1))).
Definition session (A : op -> Prop) (c : cfg) (s : fs) (hs : list wid) : Prop :=
  exists total um uid gid now, continues A (init c total um uid gid now) [] s hs.
(** os.fdopen is only given natural numbers *)
Definition natural_fds (o : op) : Prop :=
  match o with Open (PFd fd) _ _ _ => (0 <= fd)%Z | _ => True end.
(** os.fdopen is not used *)
Definition no_fdopen (o : op) : Prop :=
  match o with Open (PFd _) _ _ _ => False | _ => True end.
(** the number [fd] was the smallest that was not in use in [s], and it is the
    only one whose use changed *)
Definition took_lowest (s s' : fs) (fd : Z) : Prop :=
  (0 <= fd)%Z /\ ~ fd_used s fd /\ (forall j, (0 <= j < fd)%Z -> fd_used s j) /\
  fd_used s' fd /\ (forall j, j <> fd -> (fd_used s' j <-> fd_used s j)).
(** the handles of [hs] are as before *)
Definition handles_kept (hs : list wid) (s s' : fs) : Prop :=
  forall v, In v hs -> fileno s' v = fileno s v /\ is_open s' v = is_open s v.

(** ** The invariant of sessions *)
Record Sinv (s : fs) (hs : list wid) : Prop := mkSinv {
  si_f : Finv s;
  si_hs : forall w, In w hs -> w < f_wnext s /\ file_or_pipe (wr s w)
}.
Lemma stat_kind x y : wstat x = wstat y -> w_kind x = w_kind y.
Proof. unfold wstat. congruence. Qed.
Lemma stat_fd x y : wstat x = wstat y -> w_fd x = w_fd y.
Proof. unfold wstat. congruence. Qed.
Lemma Sinv_hst s s' hs : hst s s' -> Sinv s hs -> Sinv s' hs.
Proof.
  intros H [A B]. split; [exact (Finv_hst _ _ H A)|]. intros w Hw. destruct (B w Hw) as [B1 B2].
  destruct H as (_ & _ & H3 & H4). rewrite H3. split; [exact B1|]. unfold file_or_pipe. rewrite (stat_kind _ _ (H4 w)). exact B2.
Qed.
Lemma Sinv_opened s s' hs w fd : opened s s' w fd -> Sinv s hs -> Sinv s' hs.
Proof.
  intros Ho [A B]. split; [exact (op_inv _ _ _ _ Ho)|]. intros v Hv. destruct (B v Hv) as [B1 B2].
  rewrite (op_next _ _ _ _ Ho). split; [lia|]. unfold file_or_pipe.
  rewrite (stat_kind _ _ (op_wraps _ _ _ _ Ho v ltac:(rewrite (op_new _ _ _ _ Ho); lia))). exact B2.
Qed.
Lemma Sinv_joined s s' hs w fd l : joined s s' w fd l -> Sinv s hs -> Sinv s' hs.
Proof.
  intros Ho [A B]. split; [exact (jo_inv _ _ _ _ _ Ho)|]. intros v Hv. destruct (B v Hv) as [B1 B2].
  rewrite (jo_next _ _ _ _ _ Ho). split; [lia|]. unfold file_or_pipe.
  rewrite (stat_kind _ _ (jo_wraps _ _ _ _ _ Ho v ltac:(rewrite (jo_new _ _ _ _ _ Ho); lia))). exact B2.
Qed.
Lemma Sinv_closed s s' hs fd v : closed_to s s' fd v -> Sinv s hs -> Sinv s' hs.
Proof.
  intros Ho [A B]. split; [exact (cl_inv _ _ _ _ Ho)|]. intros w Hw. destruct (B w Hw) as [B1 B2].
  rewrite (cl_next _ _ _ _ Ho). split; [lia|]. unfold file_or_pipe. rewrite (stat_kind _ _ (cl_wraps _ _ _ _ Ho w)). exact B2.
Qed.
Lemma outm_eq {A} (f : A -> out) m s : outm f m s = (match fst (m s) with Ok a => Ok (f a) | Err e => Err e end, snd (m s)).
Proof. unfold outm, bind. destruct (m s) as [[a|e] s']; reflexivity. Qed.
Lemma returned_none o s : match o with Open _ _ _ _ => False | _ => True end -> returned (fst (step o s)) = [].
Proof.
  intros H. destruct o; try destruct H; cbn [step]; rewrite outm_eq; cbn [fst]; match goal with |- context [match fst ?x with _ => _ end] => destruct (fst x) end; reflexivity.
Qed.
Lemma os_close_dir s fd w : Finv s -> get_open_file s fd = Ok w -> exists l, slot s (w_fd (wr s w)) = Some (Some (w :: l)).
Proof.
  intros HF H. destruct (Z.ltb_spec fd 0) as [Hn|Hn].
  - unfold get_open_file in H. destruct (_ <=? _)%Z eqn:El in H; [discriminate|]. unfold py_index in H.
    rewrite (proj2 (Z.ltb_lt fd 0) Hn) in H. destruct (Z.of_nat (length (f_open s)) + fd <? 0)%Z eqn:E2 in H; [discriminate|]. apply Z.ltb_ge in E2.
    destruct (nth_error (f_open s) _) as [[[|v l]|]|] eqn:En; try discriminate. injection H as ->.
    assert (Hs : slot s (Z.of_nat (length (f_open s)) + fd)%Z = Some (Some (w :: l))).
    { unfold slot. destruct (_ <? 0)%Z eqn:E3; [apply Z.ltb_lt in E3; lia|exact En]. }
    destruct (fi_fd _ HF _ _ w Hs (or_introl eq_refl)) as [_ ->]. eauto.
  - destruct (get_open_used _ _ _ Hn H) as (l & Hl). destruct (fi_fd _ HF _ _ w Hl (or_introl eq_refl)) as [_ ->]. eauto.
Qed.
Lemma step_Sinv o s hs : natural_fds o -> own hs o -> Sinv s hs -> Sinv (snd (step o s)) (hs ++ returned (fst (step o s))).
Proof.
  intros HA Ho HS. pose proof (si_f _ _ HS) as HF. destruct (fd_call o) eqn:Efd.
  2:{ rewrite returned_none by (destruct o; try exact I; discriminate). rewrite app_nil_r.
      exact (Sinv_hst _ _ _ (hs_step o Efd s) HS). }
  destruct o; try discriminate; cbn [step]; rewrite outm_eq; cbn [fst snd].
  - (* Open *)
    unfold open_. destruct (parse_mode mode) as [om|e]; [|cbn; rewrite app_nil_r; exact HS].
    destruct (has_char _ _); [|cbn; rewrite app_nil_r; exact HS].
    assert (Hp : forall fd, a = PFd fd -> (0 <= fd)%Z) by (intros fd ->; exact HA).
    pose proof (open_call_spec a om buffering closefd false false s HF Hp) as K. unfold wp in K.
    destruct (open_call a om buffering closefd false false s) as [[w|e] s']; cbn [fst snd] in *.
    + cbn [returned]. destruct K as (Kk & K).
      assert (K2 : Sinv s' hs /\ w < f_wnext s').
      { destruct K as [(fd & K)|(fd & l & _ & K)].
        - split; [exact (Sinv_opened _ _ _ _ _ K HS)|]. rewrite (op_next _ _ _ _ K), (op_new _ _ _ _ K). lia.
        - split; [exact (Sinv_joined _ _ _ _ _ _ K HS)|]. rewrite (jo_next _ _ _ _ _ K), (jo_new _ _ _ _ _ K). lia. }
      destruct K2 as [[K2 K3] K4]. split; [exact K2|]. intros v Hv. apply in_app_iff in Hv. destruct Hv as [Hv|[<-|[]]]; [auto|].
      split; [exact K4|exact Kk].
    + cbn [returned]. rewrite app_nil_r. exact (Sinv_hst _ _ _ K HS).
  - (* OsOpen *)
    pose proof (os_open_spec p flags mode uuid s HF) as K. unfold wp in K.
    replace (returned _) with (@nil wid) by (destruct (fst (os_open _ _ _ _ _)); reflexivity). rewrite app_nil_r.
    destruct K as [(K & _)|(w & fd & K & _)]; [exact (Sinv_hst _ _ _ K HS)|exact (Sinv_opened _ _ _ _ _ K HS)].
  - (* OsClose *)
    replace (returned _) with (@nil wid) by (destruct (fst (os_close _ _)); reflexivity). rewrite app_nil_r.
    unfold os_close, bind, lift. destruct (get_open_file s fd) as [w|e] eqn:Eg; [|exact HS].
    destruct (os_close_dir _ _ _ HF Eg) as (l & Hl).
    pose proof (close_spec w s HF ltac:(eauto)) as K. unfold wp in K.
    destruct K as [(K & _)|(l' & _ & K)]; [exact (Sinv_hst _ _ _ K HS)|exact (Sinv_closed _ _ _ _ _ K HS)].
  - (* OsPipe *)
    replace (returned _) with (@nil wid) by (destruct (fst (os_pipe _)); reflexivity). rewrite app_nil_r.
    destruct (os_pipe_spec s HF) as (w1 & fd1 & s1 & w2 & fd2 & K1 & K2 & _).
    exact (Sinv_opened _ _ _ _ _ K2 (Sinv_opened _ _ _ _ _ K1 HS)).
  - (* HClose *)
    replace (returned _) with (@nil wid) by (destruct (fst (close_wrapper _ _)); reflexivity). rewrite app_nil_r.
    destruct (si_hs _ _ HS w (Ho w eq_refl)) as [_ Hk].
    pose proof (close_spec w s HF ltac:(intros E; destruct Hk; congruence)) as K. unfold wp in K.
    destruct K as [(K & _)|(l' & _ & K)]; [exact (Sinv_hst _ _ _ K HS)|exact (Sinv_closed _ _ _ _ _ K HS)].
Qed.
Lemma continues_Sinv (A : op -> Prop) s hs s' hs' : (forall o, A o -> natural_fds o) -> continues A s hs s' hs' -> Sinv s hs -> Sinv s' hs'.
Proof. intros HA H HS. induction H as [|s1 hs1 o H IH Ao Ho]; [exact HS|]. apply step_Sinv; auto. Qed.
Lemma session_Sinv (A : op -> Prop) c s hs : (forall o, A o -> natural_fds o) -> session A c s hs -> Sinv s hs.
Proof.
  intros HA (total & um & uid & gid & now & H). apply (continues_Sinv _ _ _ _ _ HA H). split; [apply init_Finv|intros w []].
Qed.
Lemma no_fdopen_natural o : no_fdopen o -> natural_fds o.
Proof. destruct o as [| | | | | | | | | | | | | | | | | | | | | | | | | | | |[p|fd] m b cf| | | | | | | | | | | | | | |]; cbn; tauto. Qed.
(** a session is a history *)
Lemma run_snoc s ops o : run s (ops ++ [o]) = snd (step o (run s ops)).
Proof. revert s. induction ops as [|x l IH]; intros s; [reflexivity|]. cbn [app run]. apply IH. Qed.
Lemma session_reachable (A : op -> Prop) c s hs : session A c s hs -> reachable c s.
Proof.
  intros (total & um & uid & gid & now & H). exists total, um, uid, gid, now.
  induction H as [|s1 hs1 o H (ops & IH) Ao Ho]; [exists []; reflexivity|].
  exists (ops ++ [o]). rewrite run_snoc, IH. reflexivity.
Qed.

(** ** C38: the lowest free number, never shared *)
Lemma opened_lowest s s' w fd : opened s s' w fd -> took_lowest s s' fd.
Proof.
  intros H. destruct H as [A B C D E F G I J]. split; [apply C|]. split; [apply C|]. split; [exact D|]. split.
  - exists [w]. exact E.
  - intros j Hj. unfold fd_used. rewrite (F j Hj). reflexivity.
Qed.
Lemma open_fd_used s w : Finv s -> is_open s w = true -> fd_used s (fileno s w).
Proof. intros HF H. destruct (is_open_slot _ _ HF H) as (l & Hl & _). exists l. exact Hl. Qed.
Lemma is_open_iff s s' w : Finv s -> Finv s' -> fileno s' w = fileno s w ->
  (forall l, slot s' (fileno s w) = Some (Some l) -> In w l -> exists l', slot s (fileno s w) = Some (Some l') /\ In w l') ->
  (forall l, slot s (fileno s w) = Some (Some l) -> In w l -> exists l', slot s' (fileno s w) = Some (Some l') /\ In w l') ->
  is_open s' w = is_open s w.
Proof.
  intros HF HF' Hf H1 H2. destruct (is_open s' w) eqn:E1; destruct (is_open s w) eqn:E2; try reflexivity; exfalso.
  - destruct (is_open_slot _ _ HF' E1) as (l & Hl & Hw). fold (fileno s' w) in Hl. rewrite Hf in Hl.
    destruct (H1 _ Hl Hw) as (l' & Hl' & Hw'). rewrite (slot_is_open _ _ _ Hl' Hw') in E2. discriminate.
  - destruct (is_open_slot _ _ HF E2) as (l & Hl & Hw). destruct (H2 _ Hl Hw) as (l' & Hl' & Hw').
    rewrite (slot_is_open s' w l') in E1; [discriminate| |exact Hw']. fold (fileno s' w). rewrite Hf. exact Hl'.
Qed.
Lemma opened_kept s s' w fd hs : opened s s' w fd -> Sinv s hs -> handles_kept hs s s'.
Proof.
  intros Ho [A B] v Hv. destruct (B v Hv) as [B1 _].
  assert (Hf : fileno s' v = fileno s v).
  { apply stat_fd, (op_wraps _ _ _ _ Ho). rewrite (op_new _ _ _ _ Ho). lia. }
  split; [exact Hf|]. apply is_open_iff; auto; [exact (op_inv _ _ _ _ Ho)| |].
  - intros l Hl Hi. destruct (Z.eq_dec (fileno s v) fd) as [E|E].
    + rewrite E, (op_slot _ _ _ _ Ho) in Hl. injection Hl as <-. destruct Hi as [Hi|[]]. rewrite (op_new _ _ _ _ Ho) in Hi. lia.
    + rewrite (op_others _ _ _ _ Ho) in Hl by exact E. eauto.
  - intros l Hl Hi. destruct (Z.eq_dec (fileno s v) fd) as [E|E].
    + exfalso. apply (proj2 (op_free _ _ _ _ Ho)). exists l. rewrite <- E. exact Hl.
    + rewrite (op_others _ _ _ _ Ho) by exact E. eauto.
Qed.
Lemma joined_kept s s' w fd l hs : joined s s' w fd l -> Sinv s hs -> handles_kept hs s s'.
Proof.
  intros K HS v Hv. pose proof (si_f _ _ HS) as HF. destruct (si_hs _ _ HS v Hv) as [B1 _].
  assert (Hfv : fileno s' v = fileno s v). { apply stat_fd, (jo_wraps _ _ _ _ _ K). rewrite (jo_new _ _ _ _ _ K). lia. }
  split; [exact Hfv|]. apply is_open_iff; auto; [exact (jo_inv _ _ _ _ _ K)| |].
  * intros l1 Hl Hi. destruct (Z.eq_dec (fileno s v) fd) as [E|E].
    -- rewrite E, (jo_slot _ _ _ _ _ K) in Hl. injection Hl as <-. apply in_app_iff in Hi. destruct Hi as [Hi|[Hi|[]]].
       ++ exists l. rewrite E. split; [exact (jo_was _ _ _ _ _ K)|exact Hi].
       ++ rewrite (jo_new _ _ _ _ _ K) in Hi. lia.
    -- rewrite (jo_others _ _ _ _ _ K) in Hl by exact E. eauto.
  * intros l1 Hl Hi. destruct (Z.eq_dec (fileno s v) fd) as [E|E].
    -- rewrite E, (jo_was _ _ _ _ _ K) in Hl. injection Hl as <-. exists (l ++ [w]). rewrite E. split; [exact (jo_slot _ _ _ _ _ K)|].
       apply in_app_iff; left; exact Hi.
    -- rewrite (jo_others _ _ _ _ _ K) by exact E. eauto.
Qed.
Lemma opened_open s s' w fd : opened s s' w fd -> is_open s' w = true.
Proof.
  intros Ho. apply (slot_is_open s' w [w]); [|left; reflexivity]. rewrite (op_fd _ _ _ _ Ho). exact (op_slot _ _ _ _ Ho).
Qed.

(** open(path, ...) *)
Theorem C38_open_lowest : forall c s hs p mode b cf w s',
  session natural_fds c s hs ->
  step (Open (PStr p) mode b cf) s = (Ok (RHandle w), s') ->
  ~ In w hs /\ is_open s' w = true /\ took_lowest s s' (fileno s' w) /\ handles_kept hs s s'.
Proof.
  intros c s hs p mode b cf w s' Hses E. pose proof (session_Sinv _ _ _ _ (fun o H => H) Hses) as HS. pose proof (si_f _ _ HS) as HF.
  cbn [step] in E. rewrite outm_eq in E. unfold open_ in E.
  destruct (parse_mode mode) as [om|e]; [|discriminate E]. destruct (has_char _ _); [|discriminate E].
  pose proof (open_call_spec (PStr p) om b cf false false s HF ltac:(intros fd H; discriminate H)) as K. unfold wp in K.
  destruct (open_call _ _ _ _ _ _ s) as [[v|e] s1]; cbn [fst snd] in *; [|discriminate E]. injection E as -> ->.
  destruct K as (_ & [(fd & K)|(fd & l & E & _)]); [|discriminate E].
  split. { intros Hw. apply (si_hs _ _ HS) in Hw. rewrite (op_new _ _ _ _ K) in Hw. lia. }
  split; [exact (opened_open _ _ _ _ K)|]. split; [|exact (opened_kept _ _ _ _ _ K HS)].
  unfold fileno. rewrite (op_fd _ _ _ _ K). exact (opened_lowest _ _ _ _ K).
Qed.
(** os.open *)
Theorem C38_os_open_lowest : forall c s hs p fl m u fd s',
  session natural_fds c s hs ->
  step (OsOpen p fl m u) s = (Ok (RInt fd), s') ->
  took_lowest s s' fd /\ handles_kept hs s s'.
Proof.
  intros c s hs p fl m u fd s' Hses E. pose proof (session_Sinv _ _ _ _ (fun o H => H) Hses) as HS. pose proof (si_f _ _ HS) as HF.
  cbn [step] in E. rewrite outm_eq in E. pose proof (os_open_spec p fl m u s HF) as K. unfold wp in K.
  destruct (os_open p fl m u s) as [[n|e] s1]; cbn [fst snd] in *; [|discriminate E]. injection E as -> ->.
  destruct K as [(_ & e & K)|(w & fd' & K & Kn)]; [discriminate K|]. rewrite (Kn _ eq_refl).
  split; [exact (opened_lowest _ _ _ _ K)|exact (opened_kept _ _ _ _ _ K HS)].
Qed.
(** os.pipe: the two lowest numbers, one after the other *)
Theorem C38_pipe_lowest : forall c s hs,
  session natural_fds c s hs ->
  exists r w s1 s', step OsPipe s = (Ok (RPair r w), s') /\ took_lowest s s1 r /\ took_lowest s1 s' w /\ handles_kept hs s s'.
Proof.
  intros c s hs Hses. pose proof (session_Sinv _ _ _ _ (fun o H => H) Hses) as HS.
  destruct (os_pipe_spec s (si_f _ _ HS)) as (w1 & fd1 & s1 & w2 & fd2 & K1 & K2 & Er).
  exists fd1, fd2, s1, (snd (os_pipe s)). split.
  - cbn [step]. rewrite outm_eq, Er. reflexivity.
  - split; [exact (opened_lowest _ _ _ _ K1)|]. split; [exact (opened_lowest _ _ _ _ K2)|].
    intros v Hv. destruct (opened_kept _ _ _ _ _ K1 HS v Hv) as [A1 A2].
    destruct (opened_kept _ _ _ _ _ K2 (Sinv_opened _ _ _ _ _ K1 HS) v Hv) as [B1 B2]. split; congruence.
Qed.
(** os.fdopen: the handle has the number it was given (or is a new pipe end);
    no other descriptor is touched *)
Theorem C38_fdopen : forall c s hs fd mode b cf w s',
  session natural_fds c s hs -> (0 <= fd)%Z ->
  step (Open (PFd fd) mode b cf) s = (Ok (RHandle w), s') ->
  ~ In w hs /\ is_open s' w = true /\ handles_kept hs s s' /\
  ((fileno s' w = fd /\ fd_used s fd /\ forall j, fd_used s' j <-> fd_used s j) \/
   (w_kind (wr s' w) = WPipe /\ took_lowest s s' (fileno s' w))).
Proof.
  intros c s hs fd mode b cf w s' Hses H0 E. pose proof (session_Sinv _ _ _ _ (fun o H => H) Hses) as HS. pose proof (si_f _ _ HS) as HF.
  cbn [step] in E. rewrite outm_eq in E. unfold open_ in E.
  destruct (parse_mode mode) as [om|e]; [|discriminate E]. destruct (has_char _ _); [|discriminate E].
  destruct (fst (open_call (PFd fd) om b cf false false s)) as [v|e] eqn:Er; [|discriminate E]. injection E as -> Es.
  assert (K : (exists fd', opened s s' w fd' /\ w_kind (wr s' w) = WPipe) \/ (exists l, joined s s' w fd l)).
  { pose proof (open_call_spec (PFd fd) om b cf false false s HF ltac:(intros x Hx; injection Hx as <-; exact H0)) as K.
    unfold wp in K. rewrite Er, Es in K. destruct K as (_ & [(fd' & K)|(fd' & l & Ef & K)]).
    2:{ right. injection Ef as <-. eauto. }
    left. exists fd'. split; [exact K|].
    (* a new slot is only taken for a pipe *)
    assert (Q : wp (open_call (PFd fd) om b cf false false) s (fun r s' => forall w, r = Ok w -> w_kind (wr s' w) = WPipe \/ f_free s' = f_free s /\ length (f_open s') = length (f_open s))).
    { unfold open_call. apply wp_bind. eapply wp_conseq; [apply wp_file_arg_fd|]. cbv beta. intros r s1 (-> & Hfa).
      destruct r as [fa|e]; [|discriminate]. specialize (Hfa _ eq_refl). destruct Hfa as ((v & Hv) & [->|(fo & -> & Ef)]).
      - destruct (add_wrap_opened pipe_wrap s HF) as (fd2 & _ & L2 & L3). unfold wp. rewrite L2. intros x Hx. injection Hx as <-. left. rewrite L3. reflexivity.
      - wstep. cbv zeta. apply wp_bind.
        match goal with |- wp ?m s ?Q => apply (wp_conseq m s (fun r s' => s' = s)) end.
        { destruct (om_must_not_exist om); [|reflexivity]. destruct (fa_obj fo); [reflexivity|]. wstep. destruct (islink _ _); reflexivity. }
        intros r s1 ->. destruct r as [[|]|]; [apply wp_raise_os; discriminate| |discriminate].
        apply wp_bind. eapply wp_conseq; [apply wp_hst, hs_init_file|]. cbv beta. intros r s1 H1.
        destruct r as [o|e]; [|discriminate]. wstep. destruct (S_ISDIR _); [apply wp_raise_os; discriminate|]. wstep.
        apply wp_bind. eapply wp_conseq; [apply wp_hst|].
        { destruct (om_trunc om); hs. }
        cbv beta. intros r s2 H2'. assert (H2 : hst s s2) by (etransitivity; eassumption). clear H2'.
        destruct r as [_|e]; [|discriminate]. wstep. destruct (is_dirobj _ _); [apply wp_raise; discriminate|]. wstep. wstep.
        rewrite Ef. destruct (get_open_used _ _ _ H0 Hv) as (l & Hl). rewrite <- (slot_hst _ _ H2) in Hl.
        apply wp_bind. unfold wp at 1. cbn [alloc_wrap fst snd]. wstep.
        match goal with |- context [py_index (f_open (set_wnext (set_wraps s2 ?a) ?b)) fd] =>
          change (py_index (f_open (set_wnext (set_wraps s2 a) b)) fd) with (py_index (f_open s2) fd) end.
        rewrite (slot_index _ _ _ Hl). apply wp_ret. intros x _. right. destruct H2 as (H2a & H2b & _). cbn. unfold py_set. rewrite set_nth_length, H2a, H2b.
        split; reflexivity. }
    unfold wp in Q. rewrite Er, Es in Q. specialize (Q w eq_refl). destruct Q as [Q|(Q1 & Q2)]; [exact Q|]. exfalso.
    destruct (op_free _ _ _ _ K) as [F0 Fu]. pose proof (op_slot _ _ _ _ K) as Hsl. destruct (slot_range _ _ _ Hsl) as [_ Hlen].
    rewrite Q2 in Hlen. assert (Hn : slot s fd' = Some None).
    { destruct (slot s fd') as [[l|]|] eqn:Es0; [destruct Fu; exists l; exact Es0|reflexivity|].
      unfold slot in Es0. destruct (fd' <? 0)%Z eqn:Ef; [apply Z.ltb_lt in Ef; lia|]. apply nth_error_None in Es0. lia. }
    apply (fi_free _ HF) in Hn. rewrite <- Q1 in Hn. apply (fi_free _ (op_inv _ _ _ _ K)) in Hn. congruence. }
  destruct K as [(fd' & K & Kk)|(l & K)].
  - split. { intros Hw. apply (si_hs _ _ HS) in Hw. rewrite (op_new _ _ _ _ K) in Hw. lia. }
    split; [exact (opened_open _ _ _ _ K)|]. split; [exact (opened_kept _ _ _ _ _ K HS)|]. right. split; [exact Kk|].
    unfold fileno. rewrite (op_fd _ _ _ _ K). exact (opened_lowest _ _ _ _ K).
  - split. { intros Hw. apply (si_hs _ _ HS) in Hw. rewrite (jo_new _ _ _ _ _ K) in Hw. lia. }
    assert (Hf : fileno s' w = fd) by exact (jo_fd _ _ _ _ _ K).
    split. { apply (slot_is_open s' w (l ++ [w])); [|apply in_app_iff; right; left; reflexivity]. fold (fileno s' w). rewrite Hf. exact (jo_slot _ _ _ _ _ K). }
    split.
    + exact (joined_kept _ _ _ _ _ _ K HS).
    + left. split; [exact Hf|]. split; [exists l; exact (jo_was _ _ _ _ _ K)|]. intros j. unfold fd_used.
      destruct (Z.eq_dec j fd) as [->|Hj].
      * rewrite (jo_slot _ _ _ _ _ K), (jo_was _ _ _ _ _ K). split; intros _; eexists; reflexivity.
      * rewrite (jo_others _ _ _ _ _ K) by exact Hj. reflexivity.
Qed.

(** Two open handles never share a number, unless os.fdopen made one of the other. *)
Definition single (s : fs) : Prop := forall fd l, slot s fd = Some (Some l) -> length l <= 1.
Lemma single_hst s s' : hst s s' -> single s -> single s'.
Proof. intros H K fd l. rewrite (slot_hst _ _ H). apply K. Qed.
Lemma single_opened s s' w fd : opened s s' w fd -> single s -> single s'.
Proof.
  intros H K j l Hl. destruct (Z.eq_dec j fd) as [->|E].
  - rewrite (op_slot _ _ _ _ H) in Hl. injection Hl as <-. reflexivity.
  - rewrite (op_others _ _ _ _ H) in Hl by exact E. eauto.
Qed.
Lemma single_closed s s' fd v : closed_to s s' fd v -> (forall l, v = Some l -> length l <= 1) -> single s -> single s'.
Proof.
  intros H Hv K j l Hl. destruct (Z.eq_dec j fd) as [->|E].
  - rewrite (cl_slot _ _ _ _ H) in Hl. injection Hl as ->. eauto.
  - rewrite (cl_others _ _ _ _ H) in Hl by exact E. eauto.
Qed.
Lemma remove_length_le' (w : wid) l : length (List.remove Nat.eq_dec w l) <= length l.
Proof. apply remove_length_le. Qed.
Lemma single_close w s : Finv s -> (w_kind (wr s w) = WDirW -> exists l, slot s (w_fd (wr s w)) = Some (Some l)) ->
  single s -> single (snd (close_wrapper w s)).
Proof.
  intros HF Hd HK. pose proof (close_spec w s HF Hd) as K. unfold wp in K. destruct K as [(K & _)|(l & Hl & K)].
  - exact (single_hst _ _ K HK).
  - apply (single_closed _ _ _ _ K); [|exact HK]. intros l' E. specialize (HK _ _ Hl).
    unfold left_by in E. destruct (w_kind _); try discriminate; [|destruct (w_closefd _); [discriminate|]]; injection E as <-; (eapply Nat.le_trans; [apply remove_length_le'|exact HK]).
Qed.
Lemma step_single o s hs : no_fdopen o -> own hs o -> Sinv s hs -> single s -> single (snd (step o s)).
Proof.
  intros HA Ho HS HK. pose proof (si_f _ _ HS) as HF. destruct (fd_call o) eqn:Efd.
  2:{ exact (single_hst _ _ (hs_step o Efd s) HK). }
  destruct o; try discriminate; cbn [step]; rewrite outm_eq; cbn [snd].
  - unfold open_. destruct (parse_mode mode) as [om|e]; [|exact HK]. destruct (has_char _ _); [|exact HK].
    destruct a as [p|fd]; [|destruct HA].
    pose proof (open_call_spec (PStr p) om buffering closefd false false s HF ltac:(intros fd H; discriminate H)) as K. unfold wp in K.
    destruct (open_call _ _ _ _ _ _ s) as [[v|e] s1]; cbn [fst snd] in *; [|exact (single_hst _ _ K HK)].
    destruct K as (_ & [(fd & K)|(fd & l & E & _)]); [|discriminate E]. exact (single_opened _ _ _ _ K HK).
  - destruct (os_open_spec p flags mode uuid s HF) as [(K & _)|(w & fd & K & _)]; [exact (single_hst _ _ K HK)|exact (single_opened _ _ _ _ K HK)].
  - unfold os_close, bind, lift. destruct (get_open_file s fd) as [w|e] eqn:Eg; [|exact HK].
    destruct (os_close_dir _ _ _ HF Eg) as (l & Hl). apply single_close; eauto.
  - destruct (os_pipe_spec s HF) as (w1 & fd1 & s1 & w2 & fd2 & K1 & K2 & _).
    exact (single_opened _ _ _ _ K2 (single_opened _ _ _ _ K1 HK)).
  - destruct (si_hs _ _ HS w (Ho w eq_refl)) as [_ Hk]. apply single_close; auto. intros E; destruct Hk; congruence.
Qed.
Lemma session_single c s hs : session no_fdopen c s hs -> single s.
Proof.
  intros (total & um & uid & gid & now & H).
  assert (HS : Sinv (init c total um uid gid now) []) by (split; [apply init_Finv|intros w []]).
  induction H as [|s1 hs1 o H IH Ao Ho].
  - intros fd l. unfold slot. destruct (fd <? 0)%Z; [discriminate|]. cbn.
    destruct (Z.to_nat fd) as [|[|[|n]]]; cbn; try (intros E; injection E as <-; reflexivity). destruct n; discriminate.
  - apply (step_single o s1 hs1 Ao Ho); [|exact IH]. exact (continues_Sinv _ _ _ _ _ no_fdopen_natural H HS).
Qed.
Theorem C38_never_shared : forall c s hs v w,
  session no_fdopen c s hs ->
  In v hs -> In w hs -> is_open s v = true -> is_open s w = true -> fileno s v = fileno s w -> v = w.
Proof.
  intros c s hs v w Hses _ _ Hv Hw E. pose proof (session_Sinv _ _ _ _ no_fdopen_natural Hses) as [HF _].
  pose proof (session_single _ _ _ Hses) as HK.
  destruct (is_open_slot _ _ HF Hv) as (l & Hl & Hi). destruct (is_open_slot _ _ HF Hw) as (l' & Hl' & Hi').
  fold (fileno s v) in Hl. fold (fileno s w) in Hl'. rewrite E in Hl. rewrite Hl in Hl'. injection Hl' as <-.
  specialize (HK _ _ Hl). destruct l as [|x [|y l]]; cbn in HK; try lia; [destruct Hi|].
  destruct Hi as [<-|[]]. destruct Hi' as [<-|[]]. reflexivity.
Qed.

(** close: a handle that owns its descriptor frees exactly this number *)
Theorem C38_close : forall c s hs w s',
  session natural_fds c s hs -> In w hs -> is_open s w = true ->
  w_kind (wr s w) = WFile -> w_closefd (wr s w) = true ->
  step (HClose w) s = (Ok RUnit, s') ->
  is_open s' w = false /\ ~ fd_used s' (fileno s w) /\
  (forall j, j <> fileno s w -> (fd_used s' j <-> fd_used s j)) /\
  (forall v, In v hs -> fileno s v <> fileno s w -> is_open s' v = is_open s v).
Proof.
  intros c s hs w s' Hses Hw Hop Hk Hc E. pose proof (session_Sinv _ _ _ _ (fun o H => H) Hses) as HS. pose proof (si_f _ _ HS) as HF.
  cbn [step] in E. rewrite outm_eq in E. pose proof (close_spec w s HF ltac:(congruence)) as K. unfold wp in K.
  destruct (close_wrapper w s) as [[[]|e] s1]; cbn [fst snd] in *; [|discriminate E]. injection E as ->.
  destruct K as [(_ & K)|(l & Hl & K)].
  { destruct (K eq_refl) as [K'|(_ & K')]; congruence. }
  unfold left_by in K. rewrite Hk, Hc in K. fold (fileno s w) in K, Hl.
  assert (Hf : forall v, fileno s' v = fileno s v) by (intros v; apply stat_fd, (cl_wraps _ _ _ _ K)).
  assert (Hu : ~ fd_used s' (fileno s w)). { intros (l' & Hl'). rewrite (cl_slot _ _ _ _ K) in Hl'. discriminate. }
  split.
  - destruct (is_open s' w) eqn:Eo; [|reflexivity]. apply (open_fd_used _ _ (cl_inv _ _ _ _ K)) in Eo. rewrite Hf in Eo. contradiction.
  - split; [exact Hu|]. split.
    + intros j Hj. unfold fd_used. rewrite (cl_others _ _ _ _ K) by exact Hj. reflexivity.
    + intros v _ Hne. apply is_open_iff; auto; [exact (cl_inv _ _ _ _ K)| |]; intros l1 Hl1 Hi;
        rewrite (cl_others _ _ _ _ K) in * by exact Hne; eauto.
Qed.
(** os.close does the same for a descriptor that is not a pipe *)
Definition fd_kind (s : fs) (fd : Z) : option wkind :=
  match get_open_file s fd with Ok w => Some (w_kind (wr s w)) | Err _ => None end.
Theorem C38_os_close : forall c s hs fd s',
  session natural_fds c s hs -> (0 <= fd)%Z -> (fd_kind s fd = Some WFile \/ fd_kind s fd = Some WDirW) ->
  (forall w, get_open_file s fd = Ok w -> w_closefd (wr s w) = true) ->
  step (OsClose fd) s = (Ok RUnit, s') ->
  fd_used s fd /\ ~ fd_used s' fd /\ (forall j, j <> fd -> (fd_used s' j <-> fd_used s j)) /\
  (forall v, In v hs -> fileno s v = fd -> is_open s' v = false) /\
  (forall v, In v hs -> fileno s v <> fd -> is_open s' v = is_open s v).
Proof.
  intros c s hs fd s' Hses H0 Hk Hcl E. pose proof (session_Sinv _ _ _ _ (fun o H => H) Hses) as HS. pose proof (si_f _ _ HS) as HF.
  cbn [step] in E. rewrite outm_eq in E. unfold fd_kind in Hk. destruct (get_open_file s fd) as [w|e] eqn:Eg; [|destruct Hk; discriminate].
  specialize (Hcl w eq_refl). destruct (get_open_used _ _ _ H0 Eg) as (l & Hl).
  destruct (fi_fd _ HF _ _ w Hl (or_introl eq_refl)) as [_ Hfd].
  unfold os_close, bind, lift in E. rewrite Eg in E.
  pose proof (close_spec w s HF ltac:(rewrite Hfd; eauto)) as K. unfold wp in K.
  destruct (close_wrapper w s) as [[[]|e] s1]; cbn [fst snd] in *; [|discriminate E]. injection E as ->.
  destruct K as [(_ & K)|(l2 & Hl2 & K)].
  { exfalso. destruct (K eq_refl) as [K'|(_ & K')]; [destruct Hk; congruence|]. rewrite (slot_is_open s w (w :: l)) in K'; [discriminate|rewrite Hfd; exact Hl|left; reflexivity]. }
  rewrite Hfd in K. assert (Kv : left_by (wr s w) w l2 = None).
  { unfold left_by. destruct Hk as [Hk|Hk]; injection Hk as ->; [rewrite Hcl|]; reflexivity. }
  rewrite Kv in K.
  assert (Hf : forall v, fileno s' v = fileno s v) by (intros v; apply stat_fd, (cl_wraps _ _ _ _ K)).
  assert (Hu : ~ fd_used s' fd). { intros (l' & Hl'). rewrite (cl_slot _ _ _ _ K) in Hl'. discriminate. }
  split; [exists (w :: l); exact Hl|]. split; [exact Hu|]. split.
  - intros j Hj. unfold fd_used. rewrite (cl_others _ _ _ _ K) by exact Hj. reflexivity.
  - split.
    + intros v _ Hv. destruct (is_open s' v) eqn:Eo; [|reflexivity]. apply (open_fd_used _ _ (cl_inv _ _ _ _ K)) in Eo. rewrite Hf, Hv in Eo. contradiction.
    + intros v _ Hne. apply is_open_iff; auto; [exact (cl_inv _ _ _ _ K)| |]; intros l1 Hl1 Hi;
        rewrite (cl_others _ _ _ _ K) in * by exact Hne; eauto.
Qed.

(** ** C39: a number that is not an open descriptor *)
(** the calls that take the descriptor [fd] *)
Inductive uses_fd (fd : Z) : op -> Prop :=
| uf_read n : uses_fd fd (OsRead fd n)
| uf_write d : uses_fd fd (OsWrite fd d)
| uf_close : uses_fd fd (OsClose fd)
| uf_ftruncate n : uses_fd fd (Ftruncate fd n)
| uf_truncate n : uses_fd fd (Truncate (PFd fd) n)
| uf_chmod m f : uses_fd fd (Chmod (PFd fd) m f)
| uf_chown u g f : uses_fd fd (Chown (PFd fd) u g f)
| uf_chdir : uses_fd fd (Chdir (PFd fd))
| uf_utime_now f : uses_fd fd (Utime (PFd fd) None None f)
| uf_utime a m f : uses_fd fd (Utime (PFd fd) (Some [a; m]) None f)
| uf_utime_ns a m f : uses_fd fd (Utime (PFd fd) None (Some [a; m]) f)
| uf_setx k v fl f : uses_fd fd (SetXattr (PFd fd) k v fl f)
| uf_delx k f : uses_fd fd (RemoveXattr (PFd fd) k f)
| uf_fdopen mode om b cf : parse_mode mode = Ok om -> has_char "b"%char mode = true -> uses_fd fd (Open (PFd fd) mode b cf).
Lemma bad_fd s fd : (0 <= fd)%Z -> ~ fd_used s fd -> get_open_file s fd = Err (OSErr EBADF).
Proof.
  intros H0 H. unfold get_open_file. destruct (_ <=? _)%Z eqn:E; [reflexivity|]. apply Z.leb_gt in E.
  rewrite index_slot by exact H0. destruct (slot s fd) as [[l|]|] eqn:Es.
  - destruct H. exists l. exact Es.
  - reflexivity.
  - unfold slot in Es. destruct (fd <? 0)%Z eqn:Ef; [apply Z.ltb_lt in Ef; lia|]. apply nth_error_None in Es. lia.
Qed.
Theorem C39_bad_fd : forall s fd,
  (0 <= fd)%Z -> ~ fd_used s fd ->
  (forall o, uses_fd fd o -> is_linux (f_cfg s) = true -> step o s = (Err (OSErr EBADF), s)) /\
  fstat s fd = Err (OSErr EBADF) /\ listdir s (PFd fd) = Err (OSErr EBADF) /\
  (forall follow, stat s (PFd fd) follow = Err (OSErr EBADF)) /\
  ((3 <= fd)%Z -> os_fsync s fd = Err (OSErr EBADF)).
Proof.
  intros s fd H0 Hu. pose proof (bad_fd _ _ H0 Hu) as E.
  assert (Eo : fd_object s fd = Err (OSErr EBADF)) by (unfold fd_object; rewrite E; reflexivity).
  split; [|split; [|split; [|split]]].
  - intros o Ho Hl. assert (Hl2 : c_mac (f_cfg s) = false).
    { unfold is_linux in Hl. destruct (c_mac (f_cfg s)); [rewrite andb_false_r in Hl; discriminate Hl|reflexivity]. }
    destruct Ho; cbn [step]; rewrite outm_eq;
      unfold os_read, os_write, os_close, os_ftruncate, os_truncate, chmod, chown, chdir, utime, setxattr, removexattr, open_, open_call;
      cbn [handle_file_arg resolve_arg resolve_path_arg];
      unfold bind, lift, gets, catch; cbn [resolve_arg resolve_path_arg length Nat.eqb negb]; rewrite ?E, ?Eo; cbv beta iota;
      try rewrite Hl; cbn [negb]; rewrite ?Eo, ?E; try rewrite Hl2; try reflexivity.
    rewrite H, H1. unfold bind. rewrite E. reflexivity.
  - unfold fstat. rewrite Eo. reflexivity.
  - unfold listdir. cbn [resolve_path_arg]. rewrite Eo. reflexivity.
  - intros f. unfold stat, stat_obj. cbn [resolve_arg]. rewrite Eo. reflexivity.
  - intros H3. unfold os_fsync. destruct (fd <? 3)%Z eqn:El; [apply Z.ltb_lt in El; lia|]. rewrite andb_false_r, E. reflexivity.
Qed.

(** a closed handle: close() does nothing, everything else raises and changes
    nothing *)
Theorem C39_closed_handle : forall s w o,
  w_kind (wr s w) = WFile -> is_open s w = false -> handle_of o = Some w ->
  snd (step o s) = s /\
  (o = HClose w -> fst (step o s) = Ok RUnit) /\
  (o <> HClose w -> exists e, fst (step o s) = Err e) /\
  (o <> HClose w -> is_large s (w_obj (wr s w)) = false -> fst (step o s) = Err ValueErr).
Proof.
  intros s w o Hk Ho Hh.
  assert (Hc : check_open w s = (Err ValueErr, s)) by (unfold check_open, bind, gets; rewrite Ho; reflexivity).
  assert (He : exists e, io_enter w s = (Err e, s) /\ (is_large s (w_obj (wr s w)) = false -> e = ValueErr)).
  { unfold io_enter, wget, bind, gets. rewrite Hk. destruct (is_large _ _); [exists LargeFile; split; [reflexivity|discriminate]|].
    rewrite Hc. exists ValueErr. auto. }
  destruct He as (e & He & Hl).
  destruct o; try discriminate; cbn [handle_of] in Hh; injection Hh as ->; cbn [step]; rewrite outm_eq.
  - unfold file_read, bind. rewrite He. cbn [fst snd]. split; [reflexivity|]. split; [discriminate|]. split; [eauto|]. intros _ H. rewrite (Hl H). reflexivity.
  - unfold file_write, bind. rewrite He. cbn [fst snd]. split; [reflexivity|]. split; [discriminate|]. split; [eauto|]. intros _ H. rewrite (Hl H). reflexivity.
  - unfold file_seek, wget, bind, gets. rewrite Hk, Hc. cbn [fst snd]. split; [reflexivity|]. split; [discriminate|]. split; [eauto|]. reflexivity.
  - unfold file_tell, wget, bind, gets. rewrite Hk, Hc. cbn [fst snd]. split; [reflexivity|]. split; [discriminate|]. split; [eauto|]. reflexivity.
  - unfold file_truncate, bind. rewrite He. cbn [fst snd]. split; [reflexivity|]. split; [discriminate|]. split; [eauto|]. intros _ H. rewrite (Hl H). reflexivity.
  - unfold flush_wrapper, flush, wget, bind, gets. rewrite Hk, Hc. cbn [fst snd]. split; [reflexivity|]. split; [discriminate|]. split; [eauto|]. reflexivity.
  - unfold close_wrapper, close_file, wget, bind, gets. rewrite Hk, Ho. cbn. split; [reflexivity|]. split; [reflexivity|]. split; intros H; destruct H; reflexivity.
Qed.

(** a closed handle never comes back to life, whoever gets its number *)
Lemma closed_not_open s s' fd v w : Finv s -> closed_to s s' fd v ->
  (forall l, v = Some l -> exists l0, slot s fd = Some (Some l0) /\ incl l l0) -> is_open s w = false -> is_open s' w = false.
Proof.
  intros HF K Hv Ho. destruct (is_open s' w) eqn:E; [|reflexivity]. exfalso.
  destruct (is_open_slot _ _ (cl_inv _ _ _ _ K) E) as (l & Hl & Hi).
  assert (Hf : w_fd (wr s' w) = w_fd (wr s w)) by apply stat_fd, (cl_wraps _ _ _ _ K). rewrite Hf in Hl.
  destruct (Z.eq_dec (w_fd (wr s w)) fd) as [Ee|Ee].
  - rewrite Ee, (cl_slot _ _ _ _ K) in Hl. injection Hl as ->. destruct (Hv _ eq_refl) as (l0 & Hl0 & Hinc).
    rewrite (slot_is_open s w l0) in Ho; [discriminate|rewrite Ee; exact Hl0|apply Hinc, Hi].
  - rewrite (cl_others _ _ _ _ K) in Hl by exact Ee. rewrite (slot_is_open s w l Hl Hi) in Ho. discriminate.
Qed.
Lemma close_keeps_closed v s w : Finv s -> (w_kind (wr s v) = WDirW -> exists l, slot s (w_fd (wr s v)) = Some (Some l)) ->
  is_open s w = false -> is_open (snd (close_wrapper v s)) w = false.
Proof.
  intros HF Hd Ho. pose proof (close_spec v s HF Hd) as K. unfold wp in K. destruct K as [(K & _)|(l & Hl & K)].
  - rewrite (is_open_hst _ _ _ K). exact Ho.
  - apply (closed_not_open _ _ _ _ _ HF K); [|exact Ho]. intros l' E. exists l. split; [exact Hl|].
    unfold left_by in E. destruct (w_kind _); try discriminate; [|destruct (w_closefd _); [discriminate|]]; injection E as <-; intros x Hx; apply in_remove in Hx; tauto.
Qed.
Lemma step_stays_closed o s hs w : natural_fds o -> own hs o -> Sinv s hs -> In w hs -> is_open s w = false -> is_open (snd (step o s)) w = false.
Proof.
  intros HA Ho HS Hw Hop. pose proof (si_f _ _ HS) as HF. destruct (fd_call o) eqn:Efd.
  2:{ rewrite (is_open_hst _ _ _ (hs_step o Efd s)). exact Hop. }
  destruct o; try discriminate; cbn [step]; rewrite outm_eq; cbn [snd].
  - unfold open_. destruct (parse_mode mode) as [om|e]; [|exact Hop]. destruct (has_char _ _); [|exact Hop].
    assert (Hp : forall fd, a = PFd fd -> (0 <= fd)%Z) by (intros fd ->; exact HA).
    pose proof (open_call_spec a om buffering closefd false false s HF Hp) as K. unfold wp in K.
    destruct (open_call _ _ _ _ _ _ s) as [[v|e] s1]; cbn [fst snd] in *; [|rewrite (is_open_hst _ _ _ K); exact Hop].
    destruct K as (_ & [(fd & K)|(fd & l & E & K)]).
    + rewrite (proj2 (opened_kept _ _ _ _ _ K HS w Hw)). exact Hop.
    + rewrite (proj2 (joined_kept _ _ _ _ _ _ K HS w Hw)). exact Hop.
  - destruct (os_open_spec p flags mode uuid s HF) as [(K & _)|(v & fd & K & _)]; [rewrite (is_open_hst _ _ _ K); exact Hop|].
    rewrite (proj2 (opened_kept _ _ _ _ _ K HS w Hw)). exact Hop.
  - unfold os_close, bind, lift. destruct (get_open_file s fd) as [v|e] eqn:Eg; [|exact Hop].
    destruct (os_close_dir _ _ _ HF Eg) as (l & Hl). apply close_keeps_closed; eauto.
  - destruct (os_pipe_spec s HF) as (w1 & fd1 & s1 & w2 & fd2 & K1 & K2 & _).
    rewrite (proj2 (opened_kept _ _ _ _ _ K2 (Sinv_opened _ _ _ _ _ K1 HS) w Hw)), (proj2 (opened_kept _ _ _ _ _ K1 HS w Hw)). exact Hop.
  - destruct (si_hs _ _ HS w0 (Ho w0 eq_refl)) as [_ Hk]. apply close_keeps_closed; auto. intros E; destruct Hk; congruence.
Qed.
Theorem C39_closed_forever : forall c s hs w s' hs',
  session natural_fds c s hs -> In w hs -> is_open s w = false ->
  continues natural_fds s hs s' hs' -> is_open s' w = false /\ In w hs'.
Proof.
  intros c s hs w s' hs' Hses Hw Hop H. pose proof (session_Sinv _ _ _ _ (fun o H => H) Hses) as HS.
  induction H as [|s1 hs1 o H [IH1 IH2] Ao Ho]; [auto|].
  split; [|apply in_app_iff; left; exact IH2].
  apply (step_stays_closed o s1 hs1 w Ao Ho); auto. exact (continues_Sinv _ _ _ _ _ (fun o H => H) H HS).
Qed.

(** ** Concrete cases *)
Fixpoint okops (A : op -> Prop) (s : fs) (hs : list wid) (ops : list op) : Prop :=
  match ops with
  | [] => True
  | o :: r => A o /\ own hs o /\ okops A (snd (step o s)) (hs ++ returned (fst (step o s))) r
  end.
Fixpoint all_handles (s : fs) (hs : list wid) (ops : list op) : list wid :=
  match ops with [] => hs | o :: r => all_handles (snd (step o s)) (hs ++ returned (fst (step o s))) r end.
Lemma continues_trans A s hs s1 hs1 s2 hs2 : continues A s hs s1 hs1 -> continues A s1 hs1 s2 hs2 -> continues A s hs s2 hs2.
Proof. intros H K. induction K; [exact H|]. econstructor; eauto. Qed.
Lemma continues_ops (A : op -> Prop) ops : forall s hs, okops A s hs ops -> continues A s hs (run s ops) (all_handles s hs ops).
Proof.
  induction ops as [|o r IH]; intros s hs H; [constructor|]. destruct H as (Ha & Ho & H). cbn [run all_handles].
  eapply continues_trans; [|apply IH, H]. exact (co_step A s hs s hs o (co_nil A s hs) Ha Ho).
Qed.
Ltac okgo := repeat (split; [exact I|split; [let w := fresh "w" in let E := fresh "E" in intros w E; (discriminate E || (injection E as <-; vm_compute; auto 10))|]]); exact I.

Lemma pair_eq {A B} (x : A * B) a : fst x = a -> x = (a, snd x).
Proof. intros <-. destruct x; reflexivity. Qed.
Definition fd_init : fs := init posix_cfg None 18 0 0 0.
(** three files, two handles, the first closed again *)
Definition fd_ops : list op :=
  [CreateFile (L "/f") 33188 (Some (L "abc")) None true true;
   Open (PStr (L "/f")) (L "rb") (-1) true;
   Open (PStr (L "/f")) (L "r+b") (-1) true;
   OsOpen (L "/g") 66 None [];
   HClose 3].
Definition fd_state : fs := run fd_init fd_ops.
Lemma fd_session : session natural_fds posix_cfg fd_state (all_handles fd_init [] fd_ops) /\
                   session no_fdopen posix_cfg fd_state (all_handles fd_init [] fd_ops).
Proof.
  split; exists None, 18%N, 0%Z, 0%Z, 0%Z; apply continues_ops; okgo.
Qed.
Example fd_handles : all_handles fd_init [] fd_ops = [3; 4].
Proof. vm_compute. reflexivity. Qed.
(** 3 is free, 4 and 5 are in use, so the next open gets 3, the one after 6 *)
Example C38_example :
  is_open fd_state 3 = false /\ is_open fd_state 4 = true /\ fileno fd_state 4 = 4%Z /\
  ~ fd_used fd_state 3 /\ fd_used fd_state 5 /\
  (exists s', step (Open (PStr (L "/g")) (L "rb") (-1) true) fd_state = (Ok (RHandle 6), s') /\ fileno s' 6 = 3%Z /\
   exists s'', step (OsOpen (L "/g") 0 None []) s' = (Ok (RInt 6), s'')).
Proof.
  split; [vm_compute; reflexivity|]. split; [vm_compute; reflexivity|]. split; [vm_compute; reflexivity|].
  split. { intros (l & Hl). vm_compute in Hl. discriminate Hl. }
  split. { exists [5]. vm_compute. reflexivity. }
  exists (snd (step (Open (PStr (L "/g")) (L "rb") (-1) true) fd_state)).
  split; [apply pair_eq; vm_compute; reflexivity|]. split; [vm_compute; reflexivity|].
  exists (snd (step (OsOpen (L "/g") 0 None []) (snd (step (Open (PStr (L "/g")) (L "rb") (-1) true) fd_state)))). apply pair_eq; vm_compute; reflexivity.
Qed.
(** fdopen joins the slot; closing the new handle frees the number *)
Example C38_fdopen_example :
  exists s', step (Open (PFd 4) (L "rb") (-1) true) fd_state = (Ok (RHandle 6), s') /\ fileno s' 6 = 4%Z /\
  w_kind (wr s' 6) = WFile /\ w_closefd (wr s' 6) = true /\ is_open s' 6 = true /\
  exists s'', step (HClose 6) s' = (Ok RUnit, s'') /\ is_open s'' 4 = false.
Proof.
  exists (snd (step (Open (PFd 4) (L "rb") (-1) true) fd_state)).
  split; [apply pair_eq; vm_compute; reflexivity|].
  split; [vm_compute; reflexivity|]. split; [vm_compute; reflexivity|]. split; [vm_compute; reflexivity|]. split; [vm_compute; reflexivity|].
  exists (snd (step (HClose 6) (snd (step (Open (PFd 4) (L "rb") (-1) true) fd_state)))). split; [apply pair_eq; vm_compute; reflexivity|vm_compute; reflexivity].
Qed.
Example C38_os_close_example :
  fd_kind fd_state 5 = Some WFile /\ (forall w, get_open_file fd_state 5 = Ok w -> w_closefd (wr fd_state w) = true) /\
  fst (step (OsClose 5) fd_state) = Ok RUnit.
Proof.
  split; [vm_compute; reflexivity|]. split; [|vm_compute; reflexivity]. intros w H.
  assert (E : get_open_file fd_state 5 = Ok 5) by (vm_compute; reflexivity). rewrite E in H. injection H as <-. vm_compute. reflexivity.
Qed.
(** the handle 3 is closed: no hypothesis of C39 is empty *)
Example C39_example :
  (0 <= 3)%Z /\ ~ fd_used fd_state 3 /\ uses_fd 3 (OsRead 3 10) /\ w_kind (wr fd_state 3) = WFile /\ is_open fd_state 3 = false /\
  handle_of (HRead 3 (-1)) = Some 3 /\ is_large fd_state (w_obj (wr fd_state 3)) = false.
Proof.
  split; [lia|]. split; [exact (proj1 (proj2 (proj2 (proj2 C38_example))))|]. split; [constructor|]. vm_compute. auto.
Qed.

(** ** What does not hold *)
(** os.fdopen accepts -1; closing the handle puts -1 among the free numbers and
    the next file is given the descriptor -1. *)
Definition neg_ops : list op :=
  [CreateFile (L "/f") 33188 (Some (L "abc")) None true true;
   Open (PStr (L "/f")) (L "rb") (-1) true;
   Open (PFd (-1)) (L "rb") (-1) true;
   HClose 4].
Definition neg_state : fs := run fd_init neg_ops.
Theorem C38_fdopen_negative_refuted :
  session (fun _ => True) posix_cfg neg_state (all_handles fd_init [] neg_ops) /\
  exists s', step (Open (PStr (L "/f")) (L "rb") (-1) true) neg_state = (Ok (RHandle 5), s') /\ fileno s' 5 = (-1)%Z.
Proof.
  split.
  - exists None, 18%N, 0%Z, 0%Z, 0%Z; apply continues_ops; okgo.
  - exists (snd (step (Open (PStr (L "/f")) (L "rb") (-1) true) neg_state)).
    split; [apply pair_eq; vm_compute; reflexivity|vm_compute; reflexivity].
Qed.
(** os.close(-1) closes the last descriptor instead of raising EBADF *)
Theorem C39_negative_refuted :
  exists s s' : fs, session natural_fds posix_cfg s (all_handles fd_init [] fd_ops) /\
    step (OsClose (-1)) s = (Ok RUnit, s') /\ fd_used s 5 /\ ~ fd_used s' 5.
Proof.
  exists fd_state, (snd (step (OsClose (-1)) fd_state)). split; [apply fd_session|].
  split; [apply pair_eq; vm_compute; reflexivity|].
  split. { exists [5]. vm_compute. reflexivity. }
  intros (l & Hl). vm_compute in Hl. discriminate Hl.
Qed.
(** the number of a closed pipe end is never given out again, and reading it
    raises IndexError instead of OSError(EBADF) *)
Definition pipe_ops : list op := [OsPipe; OsClose 3].
Definition pipe_state : fs := run fd_init pipe_ops.
Theorem C39_pipe_refuted :
  session natural_fds posix_cfg pipe_state [] /\
  fst (step OsPipe fd_init) = Ok (RPair 3 4) /\ fst (step (OsRead 3 1) pipe_state) = Err IndexErr /\
  fst (step OsPipe pipe_state) = Ok (RPair 5 6).
Proof.
  split.
  - exists None, 18%N, 0%Z, 0%Z, 0%Z. change (@nil wid) with (all_handles fd_init [] pipe_ops) at 2. apply continues_ops; okgo.
  - split; [vm_compute; reflexivity|]. split; vm_compute; reflexivity.
Qed.

Print Assumptions C38_open_lowest.
Print Assumptions C38_os_open_lowest.
Print Assumptions C38_pipe_lowest.
Print Assumptions C38_fdopen.
Print Assumptions C38_never_shared.
Print Assumptions C38_close.
Print Assumptions C38_os_close.
Print Assumptions C39_bad_fd.
Print Assumptions C39_closed_handle.
Print Assumptions C39_closed_forever.
Print Assumptions C38_fdopen_negative_refuted.
Print Assumptions C39_negative_refuted.
Print Assumptions C39_pipe_refuted.
