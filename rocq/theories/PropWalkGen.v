(** * C82: os.walk and os.scandir while the filesystem changes *)
From Verif Require Export WalkGenModel.
From Verif Require Import FsSpec WalkSpec WalkThm IoFrame GraphIo PropWalk PropFd.
From Coq Require Import List Bool ZArith Lia Ascii.
Import ListNotations.
Open Scope nat_scope.

(** ** The calls of next() *)

(** next() with the filesystem in the state [s]: the event, or [None] at the end *)
Inductive nexts (s : fs) (td follow : bool) : gen -> option wevent -> gen -> Prop :=
| nx_end : nexts s td follow [] None []
| nx_event g ev g' : gstep s td follow g = Ok (Some ev, g') -> nexts s td follow g (Some ev) g'
| nx_on g g1 e g' : g <> [] -> gstep s td follow g = Ok (None, g1) -> nexts s td follow g1 e g' -> nexts s td follow g e g'.

(** one next() of a trace: the state it was made in, the event, and the list of
    directories the caller leaves in a tuple yielded top-down *)
Record nextcall := mknext { nc_state : fs; nc_event : wevent; nc_left : list str }.
(** Any run of a walk of [top]: next() and other calls in any order.  [trace ..
    l s g]: the next() calls [l] were made, and now the filesystem is [s] and
    the generator [g]. *)
Inductive trace (td follow : bool) (top : str) (s0 : fs) : list nextcall -> fs -> gen -> Prop :=
| tr_start : trace td follow top s0 [] s0 [GEnter true top]
| tr_calls l s g ops : trace td follow top s0 l s g -> trace td follow top s0 l (run s ops) g
| tr_next l s g ev g' dirs' : trace td follow top s0 l s g -> nexts s td follow g (Some ev) g' ->
    trace td follow top s0 (l ++ [mknext s ev dirs']) s (leave td ev dirs' g').

(** ** Specification *)
Definition ev_root (ev : wevent) : str := match ev with WYield r _ _ | WError r _ => r end.
(** the listing of [root] in the state [s], divided into directories and the rest *)
Definition true_listing (s : fs) (root : str) (dirs files : list str) : Prop :=
  exists l, listdir s (PStr root) = Ok l /\
    dirs = filter (fun n => isdirb s (joinp s root n)) l /\
    files = filter (fun n => negb (isdirb s (joinp s root n))) l /\
    forall n, In n l -> isdir s (joinp s root n) true = Ok (isdirb s (joinp s root n)).
Definition at_next (l : list nextcall) (s1 : fs) : Prop := exists c, In c l /\ nc_state c = s1.

Lemma classify_names_spec s p l : forall ds fs, classify_names s p l = Ok (ds, fs) ->
  ds = filter (fun n => isdirb s (joinp s p n)) l /\ fs = filter (fun n => negb (isdirb s (joinp s p n))) l /\
  forall n, In n l -> isdir s (joinp s p n) true = Ok (isdirb s (joinp s p n)).
Proof.
  induction l as [|n l IH]; intros ds fs H; cbn [classify_names] in H.
  - injection H as <- <-. repeat split. intros n [].
  - destruct (isdir s (joinp s p n) true) as [b|e] eqn:Eb; [|discriminate]. cbn [rbind] in H.
    destruct (classify_names s p l) as [[ds1 fs1]|e]; [|discriminate]. cbn [rbind fst snd] in H.
    destruct (IH _ _ eq_refl) as (E1 & E2 & E3).
    assert (Eq : isdirb s (joinp s p n) = b) by (unfold isdirb; rewrite Eb; reflexivity).
    cbn [filter]. rewrite Eq. destruct b; cbn [negb]; injection H as <- <-; (split; [congruence|]); (split; [congruence|]);
    (intros m [<-|Hm]; [rewrite Eq; exact Eb|apply E3, Hm]).
Qed.
Lemma classify_true s p ds fs : classify s p = Ok (ds, fs) -> true_listing s p ds fs.
Proof.
  unfold classify. destruct (listdir s (PStr p)) as [l|e] eqn:E; [|discriminate]. cbn [rbind]. intros H.
  destruct (classify_names_spec s p l ds fs H) as (A & B & C). exists l. auto.
Qed.

(** listing [root], or telling which of the names are directories, raises [e] *)
Definition listdir_fails (s : fs) (root : str) (e : exn) : Prop :=
  listdir s (PStr root) = Err e \/ exists l n, listdir s (PStr root) = Ok l /\ In n l /\ isdir s (joinp s root n) true = Err e.
Lemma classify_fails s p e : classify s p = Err e -> listdir_fails s p e.
Proof.
  unfold classify. destruct (listdir s (PStr p)) as [l|e1] eqn:E; cbn [rbind]; [|intros [= ->]; left; exact E].
  intros H. right. exists l.
  assert (K : exists n, In n l /\ isdir s (joinp s p n) true = Err e).
  { clear E. induction l as [|n l IH]; [discriminate|]. cbn [classify_names] in H.
    destruct (isdir s (joinp s p n) true) as [b|e1] eqn:Eb; cbn [rbind] in H.
    - destruct (classify_names s p l) as [x|e1]; [discriminate|]. cbn [rbind] in H. destruct (IH H) as (m & Hm & Em). exists m. split; [right; exact Hm|exact Em].
    - injection H as ->. exists n. split; [left; reflexivity|exact Eb]. }
  destruct K as (n & K). exists n. auto.
Qed.

Lemma trace_cfg td follow top s0 l s g : trace td follow top s0 l s g -> f_cfg s = f_cfg s0 /\ Forall (fun c => f_cfg (nc_state c) = f_cfg s0) l.
Proof.
  assert (K : forall ops s, f_cfg (run s ops) = f_cfg s).
  { induction ops as [|o ops IH]; intros s1; [reflexivity|]. cbn [run]. rewrite IH. apply call_cfg. }
  induction 1 as [|l s g ops _ [IH1 IH2]|l s g ev g' d _ [IH1 IH2] _]; [split; [reflexivity|constructor]|split; [rewrite K; exact IH1|exact IH2]|].
  split; [exact IH1|]. apply Forall_app. split; [exact IH2|]. constructor; [exact IH1|constructor].
Qed.
Lemma joinp_cfg s1 s2 a b : f_cfg s1 = f_cfg s2 -> joinp s1 a b = joinp s2 a b.
Proof. unfold joinp. intros ->. reflexivity. Qed.

(** a next() of [l], or a last one in the state [s], found [p] to be a link *)
Definition skipped_link (follow : bool) (l : list nextcall) (s : fs) (p : str) : Prop :=
  follow = false /\ exists s1, (s1 = s \/ at_next l s1) /\ islink s1 p = Ok true.
(** there was an event for [p] *)
Definition visited (l : list nextcall) (p : str) : Prop := exists c, In c l /\ ev_root (nc_event c) = p.
Lemma visited_more l l' p : visited l p -> visited (l ++ l') p.
Proof. intros (c & Hc & E). exists c. split; [apply in_or_app; left; exact Hc|exact E]. Qed.
(** the same without the last state *)
Definition dealt (follow : bool) (l : list nextcall) (p : str) : Prop :=
  visited l p \/ follow = false /\ exists s1, at_next l s1 /\ islink s1 p = Ok true.
Lemma at_next_more l l' s1 : at_next l s1 -> at_next (l ++ l') s1.
Proof. intros (c & Hc & E). exists c. split; [apply in_or_app; left; exact Hc|exact E]. Qed.
Lemma dealt_more follow l l' p : dealt follow l p -> dealt follow (l ++ l') p.
Proof.
  intros [H|(A & s1 & B & C)]; [left; apply visited_more, H|right]. split; [exact A|]. exists s1. split; [apply at_next_more, B|exact C].
Qed.

(** ** Top-down *)
Section TopDown.
Variable follow : bool.
Variable top : str.
Variable c0 : cfg.
Definition jp (a b : str) : str := match joinpaths c0 [a; b] with Some p => p | None => [] end.
(** [p] is [top], or a name left in the list of an earlier tuple below its directory *)
Definition reached_by (l : list nextcall) (p : str) : Prop :=
  p = top \/ exists s1 r ds fs lf n, In (mknext s1 (WYield r ds fs) lf) l /\ In n lf /\ p = jp r n.
(** a frame that stems from the trace *)
Definition frame_ok (l : list nextcall) (f : gframe) : Prop :=
  match f with
  | GEnter tm p => reached_by l p /\ (tm = true -> p = top)
  | GLoop r ds fs i => forall n, In n ds -> reached_by l (jp r n)
  end.
Definition td_inv (l : list nextcall) (g : gen) : Prop := Forall (frame_ok l) g.
Lemma reached_more l l' p : reached_by l p -> reached_by (l ++ l') p.
Proof. intros [H|(s1 & r & ds & fs & lf & n & H & H2)]; [left; exact H|right]. exists s1, r, ds, fs, lf, n. split; [apply in_or_app; left; exact H|exact H2]. Qed.
Lemma frames_more l l' g : td_inv l g -> td_inv (l ++ l') g.
Proof.
  intros H. eapply Forall_impl; [|exact H]. intros [tm p|r ds fs i]; cbn; [intros [A B]; split; [apply reached_more, A|exact B]|].
  intros A n Hn. apply reached_more, A, Hn.
Qed.
Definition walked_to (s : fs) (r : str) : Prop := r = top \/ follow = true \/ islink s r = Ok false.
Lemma td_step l s g ev g' : td_inv l g -> f_cfg s = c0 -> gstep s true follow g = Ok (ev, g') ->
  match ev with
  | None => td_inv l g'
  | Some (WYield r ds fs) => true_listing s r ds fs /\ reached_by l r /\ walked_to s r /\ exists k, g' = GLoop r ds fs 0 :: k /\ td_inv l k
  | Some (WError r e) => listdir_fails s r e /\ reached_by l r /\ walked_to s r /\ td_inv l g'
  end.
Proof.
  intros I Hc H. destruct g as [|[tm p|r ds fs i] k]; cbn [gstep] in H.
  - injection H as <- <-. exact I.
  - pose proof (Forall_inv I) as [R T]. pose proof (Forall_inv_tail I) as Ik.
    destruct (if tm || follow then Ok false else islink s p) as [b|e] eqn:Eb; [|discriminate]. cbn [rbind] in H.
    destruct b; [injection H as <- <-; exact Ik|].
    assert (W : walked_to s p).
    { unfold walked_to. destruct tm; [left; apply T; reflexivity|]. destruct follow; [right; left; reflexivity|right; right; exact Eb]. }
    destruct (classify s p) as [[ds fs]|[er| | | | | | | | | |]] eqn:Ec; try discriminate; injection H as <- <-.
    + split; [apply classify_true, Ec|]. split; [exact R|]. split; [exact W|]. exists k. auto.
    + split; [apply classify_fails, Ec|]. auto.
  - pose proof (Forall_inv I) as R. pose proof (Forall_inv_tail I) as Ik. cbn in R.
    destruct (nth_error ds i) as [n|] eqn:En; [|injection H as <- <-; exact Ik].
    destruct (if follow then Ok false else islink s (joinp s r n)) as [b|e] eqn:Eb; [|discriminate]. cbn [rbind] in H.
    assert (Q : td_inv l (GLoop r ds fs (S i) :: k)) by (constructor; [exact R|exact Ik]).
    destruct b; injection H as <- <-; [exact Q|]. constructor; [|exact Q]. split; [|discriminate].
    assert (E : joinp s r n = jp r n) by (unfold joinp, jp; rewrite Hc; reflexivity). rewrite E.
    apply R. exact (nth_error_In _ _ En).
Qed.
Lemma td_nexts l s g e g' : nexts s true follow g e g' -> td_inv l g -> f_cfg s = c0 ->
  match e with
  | None => g' = []
  | Some (WYield r ds fs) => true_listing s r ds fs /\ reached_by l r /\ walked_to s r /\ exists k, g' = GLoop r ds fs 0 :: k /\ td_inv l k
  | Some (WError r e) => listdir_fails s r e /\ reached_by l r /\ walked_to s r /\ td_inv l g'
  end.
Proof.
  induction 1 as [|g ev g' H|g g1 e g' _ H _ IH]; intros I Hc.
  - reflexivity.
  - exact (td_step l s g _ g' I Hc H).
  - apply IH; [exact (td_step l s g _ g1 I Hc H)|exact Hc].
Qed.
Definition pend (g : gen) (p : str) : Prop :=
  exists f, In f g /\ match f with GEnter _ q => p = q | GLoop r ds _ i => exists n, In n (skipn i ds) /\ p = jp r n end.
Lemma skipn_nth {A} (l : list A) : forall i x, nth_error l i = Some x -> skipn i l = x :: skipn (S i) l.
Proof.
  induction l as [|a l IH]; intros [|i] x H; cbn in H; try discriminate; [injection H as ->; reflexivity|].
  cbn [skipn]. apply IH, H.
Qed.
Lemma skipn_none {A} (l : list A) : forall i, nth_error l i = None -> skipn i l = [].
Proof. intros i H. apply skipn_all2. apply nth_error_None, H. Qed.
Definition tail_of (ev : option wevent) (g : gen) : gen := match ev with Some (WYield _ _ _) => tl g | _ => g end.
Lemma pend_step s g ev g' p : f_cfg s = c0 -> gstep s true follow g = Ok (ev, g') -> pend g p ->
  pend (tail_of ev g') p \/ (follow = false /\ islink s p = Ok true) \/ exists e, ev = Some e /\ ev_root e = p.
Proof.
  intros Hc H (f & Hf & P). destruct g as [|[tm q|r ds fs i] k]; cbn [gstep] in H; [destruct Hf| |].
  - destruct (if tm || follow then Ok false else islink s q) as [b|e] eqn:Eb; [|discriminate]. cbn [rbind] in H.
    destruct Hf as [<-|Hf].
    + subst q. destruct b.
      * injection H as <- <-. right. left. destruct tm; [discriminate|]. destruct follow; [discriminate|]. split; [reflexivity|exact Eb].
      * right. right. destruct (classify s p) as [[ds fs]|[er| | | | | | | | | |]] eqn:Ec; try discriminate; injection H as <- <-; eexists; split; reflexivity.
    + left. assert (K : pend k p) by (exists f; auto).
      destruct b; [injection H as <- <-; exact K|].
      destruct (classify s q) as [[ds fs]|[er| | | | | | | | | |]] eqn:Ec; try discriminate; injection H as <- <-; exact K.
  - destruct (nth_error ds i) as [n|] eqn:En.
    2:{ injection H as <- <-. left. destruct Hf as [<-|Hf]; [|exists f; auto]. cbv beta iota in P; destruct P as (m & Hm & _). rewrite (skipn_none _ _ En) in Hm. destruct Hm. }
    destruct (if follow then Ok false else islink s (joinp s r n)) as [b|e] eqn:Eb; [|discriminate]. cbn [rbind] in H.
    assert (E : joinp s r n = jp r n) by (unfold joinp, jp; rewrite Hc; reflexivity). rewrite E in *.
    destruct Hf as [<-|Hf].
    + cbv beta iota in P; destruct P as (m & Hm & ->). rewrite (skipn_nth _ _ _ En) in Hm. destruct Hm as [<-|Hm].
      * destruct b; injection H as <- <-.
        -- right. left. destruct follow; [discriminate|]. split; [reflexivity|exact Eb].
        -- left. exists (GEnter false (jp r n)). split; [left; reflexivity|reflexivity].
      * left. destruct b; injection H as <- <-; exists (GLoop r ds fs (S i)); (split; [|exists m; split; [exact Hm|reflexivity]]); [left; reflexivity|right; left; reflexivity].
    + left. destruct b; injection H as <- <-; exists f; (split; [|exact P]); [right; exact Hf|right; right; exact Hf].
Qed.
Lemma pend_nexts s g e g' p : nexts s true follow g e g' -> f_cfg s = c0 -> pend g p ->
  pend (tail_of e g') p \/ (follow = false /\ islink s p = Ok true) \/ exists ev, e = Some ev /\ ev_root ev = p.
Proof.
  induction 1 as [|g ev g' H|g g1 e g' _ H _ IH]; intros Hc P.
  - left. exact P.
  - apply (pend_step s g _ g' p Hc H P).
  - destruct (pend_step s g _ g1 p Hc H P) as [Q|[Q|(ev & K & _)]]; [apply IH; auto|right; left; exact Q|discriminate].
Qed.
End TopDown.


Lemma jp_joinp s r n : jp (f_cfg s) r n = joinp s r n.
Proof. reflexivity. Qed.
Lemma td_left l lf k r ds fs ev s : In (mknext s ev lf) l -> ev = WYield r ds fs -> forall top c0,
  td_inv top c0 l k -> td_inv top c0 l (GLoop r lf fs 0 :: k).
Proof.
  intros Hin -> top c0 H. constructor; [|exact H]. cbn. intros n Hn. right. exists s, r, ds, fs, lf, n. auto.
Qed.

Lemma snoc_split {A} (l : list A) x : forall a c b, l ++ [x] = a ++ c :: b -> (a = l /\ c = x /\ b = []) \/ exists b', l = a ++ c :: b'.
Proof.
  intros a c b E. destruct b as [|y b] using rev_ind.
  - apply app_inj_tail in E. destruct E as [-> ->]. left. auto.
  - right. clear IHb. rewrite app_comm_cons, app_assoc in E. apply app_inj_tail in E. destruct E as [-> _]. exists b. reflexivity.
Qed.
(** every next() of a top-down walk *)
Definition td_fact (follow : bool) (top : str) (c0 : cfg) (l : list nextcall) (c : nextcall) : Prop :=
  reached_by top c0 l (ev_root (nc_event c)) /\ walked_to follow top (nc_state c) (ev_root (nc_event c)) /\
  match nc_event c with
  | WYield r ds fs => true_listing (nc_state c) r ds fs
  | WError r e => listdir_fails (nc_state c) r e
  end.
Lemma td_trace follow top s0 l s g : trace true follow top s0 l s g ->
  td_inv top (f_cfg s0) l g /\
  (forall a c b, l = a ++ c :: b -> td_fact follow top (f_cfg s0) a c) /\
  (dealt follow l top \/ pend (f_cfg s0) g top) /\
  (forall c r ds fs n, In c l -> nc_event c = WYield r ds fs -> In n (nc_left c) ->
     dealt follow l (jp (f_cfg s0) r n) \/ pend (f_cfg s0) g (jp (f_cfg s0) r n)).
Proof.
  induction 1 as [|l s g ops H IH|l s g ev g' lf H IH N].
  - split; [constructor; [split; [left; reflexivity|auto]|constructor]|]. split; [intros [|x a] c b E; discriminate|].
    split; [right; exists (GEnter true top); split; [left; reflexivity|reflexivity]|]. intros c r ds fs n [].
  - exact IH.
  - destruct IH as (I & F & T & P). destruct (trace_cfg _ _ _ _ _ _ _ H) as [Hc _].
    pose proof (td_nexts follow top (f_cfg s0) l s g _ g' N I Hc) as K. cbv beta iota in K.
    set (c1 := mknext s ev lf) in *.
    assert (Hin : In c1 (l ++ [c1])) by (apply in_or_app; right; left; reflexivity).
    assert (Fn : td_fact follow top (f_cfg s0) l c1) by (destruct ev as [r ds fs|r e]; [destruct K as (K1 & K2 & K3 & _)|destruct K as (K1 & K2 & K3 & _)]; split; auto).
    assert (Hd : forall p, dealt follow l p \/ pend (f_cfg s0) g p -> dealt follow (l ++ [c1]) p \/ pend (f_cfg s0) (leave true ev lf g') p).
    { intros p [D|D]; [left; apply dealt_more, D|]. destruct (pend_nexts follow (f_cfg s0) s g _ g' p N Hc D) as [Q|[(Q1 & Q2)|(ev1 & Q1 & Q2)]].
      - right. destruct ev as [r ds fs|r e]; [|exact Q].
        destruct K as (_ & _ & _ & k & -> & _). destruct Q as (f & Hf & Q). exists f. split; [right; exact Hf|exact Q].
      - left. right. split; [exact Q1|]. exists s. split; [exists c1; auto|exact Q2].
      - left. left. exists c1. split; [exact Hin|]. injection Q1 as <-. exact Q2. }
    split; [|split; [|split]].
    + destruct ev as [r ds fs|r e].
      * destruct K as (_ & _ & _ & k & -> & Ik). cbn [leave]. apply (td_left (l ++ [c1]) lf k r ds fs _ s Hin eq_refl). apply frames_more, Ik.
      * destruct K as (_ & _ & _ & Ik). apply frames_more, Ik.
    + intros a c b E. destruct (snoc_split _ _ _ _ _ E) as [(-> & -> & ->)|(b' & ->)]; [exact Fn|apply (F a c b'); reflexivity].
    + apply Hd, T.
    + intros c r ds fs n Hc1 Ee Hn. apply in_app_or in Hc1. destruct Hc1 as [Hc1|[<-|[]]]; [apply Hd, (P c r ds fs n); auto|].
      right. cbn in Ee, Hn. subst ev. destruct K as (_ & _ & _ & k & -> & _). exists (GLoop r lf fs 0). split; [left; reflexivity|]. exists n. auto.
Qed.

Lemma td_first follow top s0 l s g : trace true follow top s0 l s g ->
  l = [] /\ g = [GEnter true top] \/ visited l top.
Proof.
  induction 1 as [|l s g ops H IH|l s g ev g' lf H IH N]; [left; auto|exact IH|]. right.
  destruct IH as [(-> & ->)|V]; [|apply visited_more, V].
  exists (mknext s ev lf). split; [left; reflexivity|]. cbn [nc_event].
  inversion N as [|g1 ev1 g2 E|g1 g2 e g3 _ E _]; subst; cbn in E;
  destruct (classify s top) as [[ds fs]|[er| | | | | | | | | |]]; try discriminate; injection E as <- <-; reflexivity.
Qed.

(** A top-down walk, whatever the caller does between the calls of next(): a
    tuple is the true listing of its directory at the moment it is yielded; its
    directory is the top, or a name that the caller left in an earlier tuple's
    list below that tuple's directory, and is not followed if it is a link at
    that moment; an error is that of listing the directory.  When the walk has
    ended, there was an event for the top and for every name left in a list,
    unless the name was a link at some next(). *)
Theorem C82_walk_topdown : forall follow top s0 l s g, trace true follow top s0 l s g ->
  (forall a x b, l = a ++ x :: b ->
     match nc_event x with
     | WYield r ds fs => true_listing (nc_state x) r ds fs
     | WError r e => listdir_fails (nc_state x) r e
     end /\
     let r := ev_root (nc_event x) in
     (r = top \/ follow = true \/ islink (nc_state x) r = Ok false) /\
     (r = top \/ exists s1 r1 ds fs lf n, In (mknext s1 (WYield r1 ds fs) lf) a /\ In n lf /\ r = joinp s0 r1 n)) /\
  (forall g', nexts s true follow g None g' ->
     visited l top /\
     forall y r ds fs n, In y l -> nc_event y = WYield r ds fs -> In n (nc_left y) ->
       visited l (joinp s0 r n) \/ skipped_link follow l s (joinp s0 r n)).
Proof.
  intros follow top s0 l s g H. destruct (td_trace follow top s0 l s g H) as (I & F & T & P). split.
  - intros a x b E. destruct (F a x b E) as (A & B & C). split; [exact C|]. split; [exact B|exact A].
  - intros g' N. destruct (trace_cfg _ _ _ _ _ _ _ H) as [Hc _].
    assert (K : forall p, dealt follow l p \/ pend (f_cfg s0) g p -> visited l p \/ skipped_link follow l s p).
    { intros p [[V|(Hf & s1 & A & B)]|Q]; [left; exact V|right; split; [exact Hf|]; exists s1; auto|].
      destruct (pend_nexts follow (f_cfg s0) s g _ g' p N Hc Q) as [Q1|[(Q1 & Q2)|(ev & Q1 & _)]]; [|right; split; [exact Q1|]; exists s; auto|discriminate].
      exfalso. pose proof (td_nexts follow top (f_cfg s0) l s g _ g' N I Hc) as K. cbn in K. subst g'. destruct Q1 as (f & [] & _). }
    split.
    + destruct (td_first follow top s0 l s g H) as [(-> & ->)|V]; [|exact V]. exfalso.
      inversion N as [|g1 ev1 g2 E|g1 g2 e g3 _ E _]; subst; cbn in E;
      destruct (classify s top) as [[ds fs]|[er| | | | | | | | | |]]; try discriminate.
    + intros y r ds fs n Hy Ey Hn. apply K, (P y r ds fs n); auto.
Qed.
Print Assumptions C82_walk_topdown.

(** ** Bottom-up *)
Section BottomUp.
Variable follow : bool.
Variable top : str.
Variable c0 : cfg.
Variables D R : str -> Prop.
Variable X : str -> list str -> list str -> Prop.
(** [o]: the directory that the frames above are busy with *)
Fixpoint bu (o : option str) (g : gen) : Prop :=
  match g with
  | [] => True
  | GEnter tm p :: k => o = None /\ R p /\ (tm = true -> p = top) /\ bu (Some p) k
  | GLoop r ds fs i :: k => X r ds fs /\ R r /\
      (forall j n, j < i -> nth_error ds j = Some n -> D (jp c0 r n) \/ o = Some (jp c0 r n)) /\ bu (Some r) k
  end.
Lemma bu_pop p k : bu (Some p) k -> D p -> bu None k.
Proof.
  destruct k as [|[tm q|r ds fs i] k]; cbn [bu]; [auto|intros [K _]; discriminate|].
  intros (A & B & C & E) Hp. repeat split; auto. intros j n Hj Hn. left. destruct (C j n Hj Hn) as [Q|[= ->]]; assumption.
Qed.
Lemma bu_step s g ev g' : f_cfg s = c0 -> (forall p, follow = false -> islink s p = Ok true -> D p) ->
  (forall r ds fs, classify s r = Ok (ds, fs) -> (r = top \/ follow = true \/ islink s r = Ok false) -> R r -> X r ds fs) ->
  (forall r ds fs n, X r ds fs -> R r -> In n ds -> R (jp c0 r n)) ->
  bu None g -> gstep s false follow g = Ok (ev, g') ->
  match ev with
  | None => bu None g'
  | Some (WYield r ds fs) => X r ds fs /\ R r /\ (forall n, In n ds -> D (jp c0 r n)) /\ bu (Some r) g'
  | Some (WError r e) => listdir_fails s r e /\ R r /\ (r = top \/ follow = true \/ islink s r = Ok false) /\ bu (Some r) g'
  end.
Proof.
  intros Hc HD HX HR B H. destruct g as [|[tm p|r ds fs i] k]; cbn [gstep] in H; cbn [bu] in B.
  - injection H as <- <-. exact Logic.I.
  - destruct B as (_ & Rp & T & B).
    destruct (if tm || follow then Ok false else islink s p) as [b|e] eqn:Eb; [|discriminate]. cbn [rbind] in H.
    destruct b.
    { injection H as <- <-. apply (bu_pop p); [exact B|]. destruct tm; [discriminate|]. destruct follow; [discriminate|]. apply HD; auto. }
    assert (W : p = top \/ follow = true \/ islink s p = Ok false).
    { destruct tm; [left; apply T; reflexivity|]. destruct follow; [right; left; reflexivity|right; right; exact Eb]. }
    destruct (classify s p) as [[ds fs]|[er| | | | | | | | | |]] eqn:Ec; try discriminate; injection H as <- <-.
    + cbn [bu]. split; [apply HX; auto|]. split; [exact Rp|]. split; [intros j n Hj; lia|exact B].
    + split; [apply classify_fails, Ec|]. auto.
  - destruct B as (HXr & Rr & A & B).
    destruct (nth_error ds i) as [n|] eqn:En.
    2:{ injection H as <- <-. split; [exact HXr|]. split; [exact Rr|]. split; [|exact B]. intros n Hn.
        apply In_nth_error in Hn. destruct Hn as [j Hj].
        assert (Hji : j < i). { apply nth_error_None in En. pose proof (proj1 (nth_error_Some ds j) ltac:(congruence)). lia. }
        destruct (A j n Hji Hj) as [Q|Q]; [exact Q|discriminate]. }
    destruct (if follow then Ok false else islink s (joinp s r n)) as [b|e] eqn:Eb; [|discriminate]. cbn [rbind] in H.
    assert (E : joinp s r n = jp c0 r n) by (unfold joinp, jp; rewrite Hc; reflexivity). rewrite E in *.
    assert (Q : forall o, D (jp c0 r n) \/ o = Some (jp c0 r n) -> bu o (GLoop r ds fs (S i) :: k)).
    { intros o Ho. cbn [bu]. split; [exact HXr|]. split; [exact Rr|]. split; [|exact B]. intros j m Hj Hm.
      destruct (Nat.eq_dec j i) as [->|Hne]; [rewrite En in Hm; injection Hm as <-; exact Ho|].
      destruct (A j m ltac:(lia) Hm) as [Q|Q]; [left; exact Q|discriminate]. }
    destruct b; injection H as <- <-.
    + apply Q. left. destruct follow; [discriminate|]. apply HD; auto.
    + cbn [bu]. split; [reflexivity|]. split; [apply (HR r ds fs n); auto; exact (nth_error_In _ _ En)|]. split; [discriminate|]. apply Q. right. reflexivity.
Qed.
Lemma bu_nexts s g e g' : nexts s false follow g e g' -> f_cfg s = c0 -> (forall p, follow = false -> islink s p = Ok true -> D p) ->
  (forall r ds fs, classify s r = Ok (ds, fs) -> (r = top \/ follow = true \/ islink s r = Ok false) -> R r -> X r ds fs) ->
  (forall r ds fs n, X r ds fs -> R r -> In n ds -> R (jp c0 r n)) ->
  bu None g ->
  match e with
  | None => True
  | Some (WYield r ds fs) => X r ds fs /\ R r /\ (forall n, In n ds -> D (jp c0 r n)) /\ bu (Some r) g'
  | Some (WError r e) => listdir_fails s r e /\ R r /\ (r = top \/ follow = true \/ islink s r = Ok false) /\ bu (Some r) g'
  end.
Proof.
  intros N Hc HD HX HR. induction N as [|g ev g' H|g g1 e g' _ H _ IH]; intros B; [exact Logic.I|exact (bu_step s g _ g' Hc HD HX HR B H)|].
  apply IH, (bu_step s g _ g1 Hc HD HX HR B H).
Qed.
End BottomUp.
Lemma bu_mono top c0 (D D' R R' : str -> Prop) (X X' : str -> list str -> list str -> Prop) g :
  (forall p, D p -> D' p) -> (forall p, R p -> R' p) -> (forall r ds fs, X r ds fs -> X' r ds fs) ->
  forall o, bu top c0 D R X o g -> bu top c0 D' R' X' o g.
Proof.
  intros HD HR HX. induction g as [|[tm p|r ds fs i] k IH]; intros o; cbn [bu]; [auto|intros (A & B & C & E); auto|].
  intros (A & B & C & E). split; [auto|]. split; [auto|]. split; [|auto]. intros j n Hj Hn. destruct (C j n Hj Hn); auto.
Qed.

(** [dirs], [files] was the true listing of [r], not reached through a link, at
    a next() of [l] or in the state [s] *)
Definition listed (follow : bool) (top : str) (l : list nextcall) (s : fs) (r : str) (ds fs : list str) : Prop :=
  exists s1, (s1 = s \/ at_next l s1) /\ true_listing s1 r ds fs /\ (r = top \/ follow = true \/ islink s1 r = Ok false).
(** [p] is the top, or was a directory in such a listing *)
Definition origin (follow : bool) (top : str) (c0 : cfg) (l : list nextcall) (s : fs) (p : str) : Prop :=
  p = top \/ exists r ds fs n, listed follow top l s r ds fs /\ In n ds /\ p = jp c0 r n.
Definition bu_fact (follow : bool) (top : str) (c0 : cfg) (l : list nextcall) (c : nextcall) : Prop :=
  let s := nc_state c in
  origin follow top c0 l s (ev_root (nc_event c)) /\
  match nc_event c with
  | WYield r ds fs => listed follow top l s r ds fs /\
      forall n, In n ds -> visited l (jp c0 r n) \/ skipped_link follow l s (jp c0 r n)
  | WError r e => listdir_fails s r e /\ (r = top \/ follow = true \/ islink s r = Ok false)
  end.
Lemma bu_trace follow top s0 l s g : trace false follow top s0 l s g ->
  bu top (f_cfg s0) (dealt follow l) (fun p => p = top \/ exists s1, at_next l s1 /\ origin follow top (f_cfg s0) l s1 p)
     (fun r ds fs => exists s1, at_next l s1 /\ listed follow top l s1 r ds fs) None g /\
  (forall a c b, l = a ++ c :: b -> bu_fact follow top (f_cfg s0) a c).
Proof.
  induction 1 as [|l s g ops H IH|l s g ev g' lf H IH N].
  - split; [|intros [|x a] c b E; discriminate]. cbn [bu]. auto.
  - exact IH.
  - destruct IH as (I & F). destruct (trace_cfg _ _ _ _ _ _ _ H) as [Hc _].
    assert (LM : forall s1 r ds fs, at_next l s1 -> listed follow top l s1 r ds fs -> listed follow top l s r ds fs).
    { intros s1 r ds fs H1 (s2 & [->|H2] & A); [exists s1|exists s2]; auto. }
    pose proof (bu_nexts follow top (f_cfg s0) (fun p => visited l p \/ skipped_link follow l s p)
      (fun p => origin follow top (f_cfg s0) l s p) (fun r ds fs => listed follow top l s r ds fs) s g _ g' N Hc) as K.
    cbv beta in K.
    assert (K0 : match ev with
      | WYield r ds fs => listed follow top l s r ds fs /\ origin follow top (f_cfg s0) l s r /\
          (forall n, In n ds -> visited l (jp (f_cfg s0) r n) \/ skipped_link follow l s (jp (f_cfg s0) r n)) /\
          bu top (f_cfg s0) (fun p => visited l p \/ skipped_link follow l s p) (origin follow top (f_cfg s0) l s) (listed follow top l s) (Some r) g'
      | WError r e => listdir_fails s r e /\ origin follow top (f_cfg s0) l s r /\ (r = top \/ follow = true \/ islink s r = Ok false) /\
          bu top (f_cfg s0) (fun p => visited l p \/ skipped_link follow l s p) (origin follow top (f_cfg s0) l s) (listed follow top l s) (Some r) g'
      end).
    { apply K.
      - intros p Hf Hp. right. split; [exact Hf|]. exists s. auto.
      - intros r ds fs E W _. exists s. split; [left; reflexivity|]. split; [apply classify_true, E|exact W].
      - intros r ds fs n HX _ Hn. right. exists r, ds, fs, n. auto.
      - revert I. apply bu_mono.
        + intros p [V|(Hf & s1 & A & B)]; [left; exact V|right]. split; [exact Hf|]. exists s1. auto.
        + intros p [->|(s1 & A & [->|(r & ds & fs & n & B & C)])]; [left; reflexivity|left; reflexivity|right].
          exists r, ds, fs, n. split; [apply (LM s1); assumption|exact C].
        + intros r ds fs (s1 & A & B). apply (LM s1); assumption. }
    clear K. set (c1 := mknext s ev lf) in *.
    assert (Hin : In c1 (l ++ [c1])) by (apply in_or_app; right; left; reflexivity).
    assert (Hs : at_next (l ++ [c1]) s) by (exists c1; auto).
    assert (Lm : forall r ds fs, listed follow top l s r ds fs -> listed follow top (l ++ [c1]) s r ds fs).
    { intros r ds fs (s1 & [->|A] & B); [exists s|exists s1]; split; auto. right. apply at_next_more, A. }
    assert (M : forall p, bu top (f_cfg s0) (fun p => visited l p \/ skipped_link follow l s p) (origin follow top (f_cfg s0) l s) (listed follow top l s) (Some p) g' ->
      ev_root ev = p -> bu top (f_cfg s0) (dealt follow (l ++ [c1])) (fun p => p = top \/ exists s1, at_next (l ++ [c1]) s1 /\ origin follow top (f_cfg s0) (l ++ [c1]) s1 p)
        (fun r ds fs => exists s1, at_next (l ++ [c1]) s1 /\ listed follow top (l ++ [c1]) s1 r ds fs) None g').
    { intros p B Hp. apply (bu_pop top (f_cfg s0) _ _ _ p).
      2:{ left. exists c1. auto. }
      revert B. apply bu_mono.
      - intros q [V|(Hf & s1 & [->|A] & B)]; [left; apply visited_more, V|right|right]; (split; [exact Hf|]); [exists s|exists s1]; split; auto. apply at_next_more, A.
      - intros q [->|(r & ds & fs & n & A & B)]; [left; reflexivity|right]. exists s. split; [exact Hs|]. right. exists r, ds, fs, n. split; [apply Lm, A|exact B].
      - intros r ds fs A. exists s. split; [exact Hs|apply Lm, A]. }
    split.
    + assert (El : leave false ev lf g' = g') by (unfold leave; destruct ev as [r ds fs|r e]; [destruct g' as [|[tm p|r1 d1 f1 [|i]] k]|]; reflexivity).
      rewrite El. destruct ev as [r ds fs|r e]; destruct K0 as (_ & _ & _ & B); apply (M r B); reflexivity.
    + intros a c b E. destruct (snoc_split _ _ _ _ _ E) as [(-> & -> & ->)|(b' & ->)]; [|apply (F a c b'); reflexivity].
      unfold bu_fact. unfold c1; cbn [nc_state nc_event]. destruct ev as [r ds fs|r e]; destruct K0 as (K1 & K2 & K3 & _); (split; [exact K2|split; [exact K1|exact K3]]).
Qed.

(** A bottom-up walk, whatever the caller does between the calls of next(): a
    tuple was the true listing of its directory at this or an earlier next()
    (the lists of the caller are not looked at again), and by the time it is
    yielded, there was an event for every directory in it that was not a link *)
Theorem C82_walk_bottomup : forall follow top s0 l s g, trace false follow top s0 l s g ->
  forall a x b, l = a ++ x :: b ->
  let s1 := nc_state x in
  (ev_root (nc_event x) = top \/
     exists r ds fs n, listed follow top a s1 r ds fs /\ In n ds /\ ev_root (nc_event x) = joinp s0 r n) /\
  match nc_event x with
  | WYield r ds fs => listed follow top a s1 r ds fs /\
      forall n, In n ds -> visited a (joinp s0 r n) \/ skipped_link follow a s1 (joinp s0 r n)
  | WError r e => listdir_fails s1 r e /\ (r = top \/ follow = true \/ islink s1 r = Ok false)
  end.
Proof.
  intros follow top s0 l s g H a x b E. destruct (bu_trace follow top s0 l s g H) as (_ & F). exact (F a x b E).
Qed.
Print Assumptions C82_walk_bottomup.

(** ** Nothing changes in between *)
(** next() is a function *)
Lemma nexts_det s td follow g e1 g1 : nexts s td follow g e1 g1 -> forall e2 g2, nexts s td follow g e2 g2 -> e1 = e2 /\ g1 = g2.
Proof.
  induction 1 as [|g ev g' H|g g1 e g' Hne H _ IH]; intros e2 g2 N; inversion N; subst; auto; try congruence; try discriminate.
  - rewrite H in H0. injection H0 as -> ->. auto.
  - apply IH. rewrite H in H1. injection H1 as ->. assumption.
Qed.
Section Still.
Variable s : fs.
Variables td follow : bool.
Variable edit : str -> list str -> list str -> list str.
(** what the caller leaves in the list of a tuple *)
Definition left_by (ev : wevent) : list str := match ev with WYield r ds fs => edit r ds fs | WError _ _ => [] end.
Inductive drains : gen -> list wevent -> Prop :=
| dr_end : drains [] []
| dr_on g g1 l : g <> [] -> gstep s td follow g = Ok (None, g1) -> drains g1 l -> drains g l
| dr_ev g ev g1 l : gstep s td follow g = Ok (Some ev, g1) -> drains (leave td ev (left_by ev) g1) l -> drains g (ev :: l).

End Still.
Lemma each_drains s td follow edit rec top ds fs k l :
  (forall p evs, rec p = Ok evs -> forall k l, drains s td follow edit k l -> drains s td follow edit (GEnter false p :: k) (evs ++ l)) ->
  drains s td follow edit k l -> forall todo i evs, skipn i ds = todo -> walk_each rec s follow top todo = Ok evs ->
  drains s td follow edit (GLoop top ds fs i :: k) (evs ++ (if td then [] else [WYield top ds fs]) ++ l).
Proof.
  intros Hrec Dk. induction todo as [|n todo IH]; intros i evs Ei H; cbn [walk_each] in H.
  - injection H as <-. cbn [app]. assert (En : nth_error ds i = None).
    { destruct (nth_error ds i) as [x|] eqn:E; [|reflexivity]. rewrite (skipn_nth _ _ _ E) in Ei. discriminate. }
    destruct td; cbn [app].
    + eapply dr_on; [discriminate| |exact Dk]. cbn [gstep]. rewrite En. reflexivity.
    + eapply dr_ev; [cbn [gstep]; rewrite En; reflexivity|]. unfold leave. destruct k as [|[tm q|r1 d1 f1 [|i1]] k]; exact Dk.
  - assert (En : nth_error ds i = Some n).
    { destruct (nth_error ds i) as [x|] eqn:E; [rewrite (skipn_nth _ _ _ E) in Ei; injection Ei as -> _; reflexivity|].
      rewrite (skipn_none _ _ E) in Ei. discriminate. }
    pose proof (skipn_nth _ _ _ En) as Es. rewrite Es in Ei. injection Ei as Ei.
    destruct (if follow then Ok false else islink s (joinp s top n)) as [b|e] eqn:Eb; [|discriminate]. cbn [rbind] in H.
    assert (G : gstep s td follow (GLoop top ds fs i :: k) =
      Ok (None, if b then GLoop top ds fs (S i) :: k else GEnter false (joinp s top n) :: GLoop top ds fs (S i) :: k)).
    { cbn [gstep]. rewrite En. cbv zeta. rewrite Eb. reflexivity. }
    destruct b; cbn [rbind] in H.
    + destruct (walk_each rec s follow top todo) as [later|e] eqn:El; [|discriminate]. cbn [rbind] in H. injection H as <-. cbn [app].
      eapply dr_on; [discriminate|exact G|]. apply IH; [exact Ei|reflexivity].
    + destruct (rec (joinp s top n)) as [here|e] eqn:Er; [|discriminate]. cbn [rbind] in H.
      destruct (walk_each rec s follow top todo) as [later|e] eqn:El; [|discriminate]. cbn [rbind] in H. injection H as <-.
      rewrite <- app_assoc. eapply dr_on; [discriminate|exact G|]. apply Hrec; [exact Er|]. apply IH; [exact Ei|reflexivity].
Qed.
Lemma walk_drains s td follow edit : forall fuel tm top evs, do_walk fuel s td follow edit tm top = Ok evs ->
  forall k l, drains s td follow edit k l -> drains s td follow edit (GEnter tm top :: k) (evs ++ l).
Proof.
  induction fuel as [|fuel IH]; intros tm top evs H k l Dk; [discriminate|]. cbn [do_walk] in H.
  destruct (if tm || follow then Ok false else islink s top) as [b|e] eqn:Eb; [|discriminate]. cbn [rbind] in H.
  destruct b.
  { injection H as <-. eapply dr_on; [discriminate| |exact Dk]. cbn [gstep]. rewrite Eb. reflexivity. }
  destruct (classify s top) as [[ds fs]|[er| | | | | | | | | |]] eqn:Ec; try discriminate.
  2:{ injection H as <-. eapply dr_ev; [cbn [gstep]; rewrite Eb; cbn [rbind]; rewrite Ec; reflexivity|]. destruct k as [|[tm1 q|r1 d1 f1 [|i1]] k]; exact Dk. }
  destruct (walk_each _ s follow top _) as [below|e] eqn:Ew; [|discriminate]. cbn [rbind] in H.
  assert (G : gstep s td follow (GEnter tm top :: k) = Ok (if td then Some (WYield top ds fs) else None, GLoop top ds fs 0 :: k)).
  { cbn [gstep]. rewrite Eb. cbn [rbind]. rewrite Ec. reflexivity. }
  destruct td.
  - injection H as <-. cbn [app]. eapply dr_ev; [exact G|]. cbn [leave left_by].
    pose proof (each_drains s true follow edit (do_walk fuel s true follow edit false) top (edit top ds fs) fs k l) as K. cbn [app] in K.
    apply (K (fun p evs E k l D => IH false p evs ltac:(exact E) k l D) Dk _ 0 below eq_refl Ew).
  - injection H as <-. eapply dr_on; [discriminate|exact G|].
    pose proof (each_drains s false follow edit (do_walk fuel s false follow edit false) top ds fs k l) as K. cbn [app] in K.
    rewrite <- app_assoc. apply (K (fun p evs E k l D => IH false p evs ltac:(exact E) k l D) Dk _ 0 below eq_refl Ew).
Qed.

Lemma drains_next s td follow edit g evs : drains s td follow edit g evs ->
  match evs with
  | [] => nexts s td follow g None []
  | ev :: l => exists g1, nexts s td follow g (Some ev) g1 /\ drains s td follow edit (leave td ev (left_by edit ev) g1) l
  end.
Proof.
  induction 1 as [|g g1 l Hne H _ IH|g ev g1 l H D _].
  - constructor.
  - destruct l as [|ev l]; [apply (nx_on _ _ _ _ _ _ _ Hne H IH)|]. destruct IH as (g2 & N & D). exists g2. split; [apply (nx_on _ _ _ _ _ _ _ Hne H N)|exact D].
  - exists g1. split; [apply nx_event, H|exact D].
Qed.
(** If the filesystem does not change, the calls of next() give one after the
    other what [walk] (C46) gives; [edit r dirs files] is what the caller leaves
    in the list of a tuple. *)
Theorem C82_undisturbed : forall s top td follow edit evs, walk s top td follow edit = Ok evs ->
  exists g, trace td follow top s (map (fun ev => mknext s ev (left_by edit ev)) evs) s g /\ nexts s td follow g None [].
Proof.
  intros s top td follow edit evs H.
  pose proof (walk_drains s td follow edit _ _ _ _ H [] [] (dr_end s td follow edit)) as D. rewrite app_nil_r in D.
  assert (K : forall evs l g, trace td follow top s l s g -> drains s td follow edit g evs ->
    exists g', trace td follow top s (l ++ map (fun ev => mknext s ev (left_by edit ev)) evs) s g' /\ nexts s td follow g' None []).
  { clear. induction evs as [|ev evs IH]; intros l g T D; pose proof (drains_next _ _ _ _ _ _ D) as N; cbn [map].
    - exists g. rewrite app_nil_r. auto.
    - destruct N as (g1 & N & D1). destruct (IH _ _ (tr_next _ _ _ _ _ _ _ _ _ (left_by edit ev) T N) D1) as (g' & T' & E).
      exists g'. split; [|exact E]. rewrite <- app_assoc in T'. exact T'. }
  apply (K evs [] _ (tr_start _ _ _ _) D).
Qed.
Print Assumptions C82_undisturbed.

(** ** scandir *)
(** the answers of successive calls of next(), made in the states [sts] *)
Fixpoint scans (it : scan_it) (sts : list fs) : list scan_answer :=
  match sts with
  | [] => []
  | s :: r => fst (scan_next s it) :: scans (snd (scan_next s it)) r
  end.
(** what os.scandir(a) tells in the state [s] about the name [n] *)
Definition tells (path abspath : str) (s : fs) (n : str) (x : scan_answer) : Prop :=
  match isdir s (joinp s abspath n) true, islink s (joinp s abspath n) with
  | Ok d, Ok l => x = SEntry (mkent n (joinp s path n) (joinp s abspath n) d l)
  | Err e, _ => x = SExn e
  | Ok _, Err e => x = SExn e
  end.
(** the directory [d] has the names [ns] *)
Definition has_names (d : oid) (ns : list str) (s : fs) : Prop := map fst (ents s d) = ns.
Lemma names_eqb_refl l : names_eqb l l = true.
Proof. induction l as [|x l IH]; [reflexivity|]. cbn. rewrite str_eqb_refl. exact IH. Qed.

(** As long as no name is added to the directory or taken from it, each call
    tells one more name of the directory, in the order of the listing, as the
    name is at that moment; then the iterator is at its end. *)
Theorem C82_scandir : forall s a it, scan_open s a = Ok it ->
  it_names it = map fst (ents s (it_dir it)) /\
  forall sts s1, Forall (has_names (it_dir it) (it_names it)) (sts ++ [s1]) ->
  (length sts <= length (it_names it) ->
     forall i s2, nth_error sts i = Some s2 -> exists n x, nth_error (it_names it) i = Some n /\
       nth_error (scans it sts) i = Some x /\ tells (it_path it) (it_abs it) s2 n x) /\
  (length sts = length (it_names it) -> nth_error (scans it (sts ++ [s1])) (length sts) = Some SStop).
Proof.
  intros s a it H. unfold scan_open in H.
  assert (A : it_names it = map fst (ents s (it_dir it)) /\ it_pos it = 0 /\ it_broken it = false /\ it_done it = false).
  { destruct a as [p|fd]; cbn [rbind] in H.
    - destruct (confirmdir s (snd (p, anp s p))) as [d|e]; [|discriminate]. cbn [rbind] in H. destruct (o_body (ob s d)) as [es|x] eqn:Eb; [|discriminate].
      injection H as <-. cbn. unfold ents. rewrite Eb. auto.
    - destruct (c_win (f_cfg s)); [discriminate|]. destruct (fd_object s fd) as [o|e]; [|discriminate]. cbn [rbind] in H.
      destruct (obj_path s o) as [q|e]; [|discriminate]. cbn [rbind] in H.
      destruct (confirmdir s _) as [d|e]; [|discriminate]. cbn [rbind] in H. destruct (o_body (ob s d)) as [es|x] eqn:Eb; [|discriminate].
      injection H as <-. cbn. unfold ents. rewrite Eb. auto. }
  destruct A as (A & P & B & D). split; [exact A|].
  assert (St : forall it s2 n, it_done it = false -> it_broken it = false -> has_names (it_dir it) (it_names it) s2 ->
    nth_error (it_names it) (it_pos it) = Some n ->
    tells (it_path it) (it_abs it) s2 n (fst (scan_next s2 it)) /\
    snd (scan_next s2 it) = mkit (it_path it) (it_abs it) (it_dir it) (it_names it) (S (it_pos it)) false false).
  { clear. intros it s2 n D B N E. unfold scan_next. rewrite D, B. unfold has_names in N. cbn zeta. rewrite N, Nat.eqb_refl. cbn [negb orb].
    rewrite names_eqb_refl. cbn [negb]. rewrite E. split; [|reflexivity]. cbn [fst]. unfold tells, scan_entry. cbn zeta.
    destruct (isdir s2 _ true) as [d|e]; [|reflexivity]. cbn [rbind]. destruct (islink s2 _) as [l|e]; reflexivity. }
  assert (G : forall sts it, it_done it = false -> it_broken it = false -> Forall (has_names (it_dir it) (it_names it)) sts ->
    it_pos it + length sts <= length (it_names it) ->
    (forall i s2, nth_error sts i = Some s2 -> exists n x, nth_error (it_names it) (it_pos it + i) = Some n /\
       nth_error (scans it sts) i = Some x /\ tells (it_path it) (it_abs it) s2 n x) /\
    forall s1, has_names (it_dir it) (it_names it) s1 -> it_pos it + length sts = length (it_names it) -> nth_error (scans it (sts ++ [s1])) (length sts) = Some SStop).
  { induction sts as [|s0 sts IH]; intros it0 D0 B0 F L; cbn [length] in L.
    - split; [intros [|i] s2 E; discriminate|]. intros s1 N E. cbn [app length scans nth_error]. f_equal. unfold scan_next. rewrite D0, B0. unfold has_names in N. cbn zeta.
      rewrite N, Nat.eqb_refl. cbn [negb orb]. rewrite names_eqb_refl. cbn [negb length] in *. rewrite (proj2 (nth_error_None _ _)) by lia. reflexivity.
    - pose proof (Forall_inv F) as N. pose proof (Forall_inv_tail F) as F'.
      destruct (nth_error (it_names it0) (it_pos it0)) as [n|] eqn:En; [|apply nth_error_None in En; lia].
      destruct (St it0 s0 n D0 B0 N En) as (T & E). cbn [scans app length]. rewrite E.
      destruct (IH (mkit (it_path it0) (it_abs it0) (it_dir it0) (it_names it0) (S (it_pos it0)) false false) eq_refl eq_refl F' ltac:(cbn; lia)) as (I1 & I2).
      cbn [it_path it_abs it_dir it_names it_pos] in I1, I2. split.
      + intros [|i] s2 Hi.
        * injection Hi as <-. exists n, (fst (scan_next s0 it0)). rewrite Nat.add_0_r. auto.
        * cbn [nth_error] in Hi |- *. destruct (I1 i s2 Hi) as (m & x & K). exists m, x. rewrite Nat.add_succ_r. exact K.
      + intros s1 N1 E1. cbn [nth_error]. apply I2; [exact N1|lia]. }
  intros sts s1 F. apply Forall_app in F. destruct F as [F F1]. apply Forall_inv in F1. split.
  - intros L i s2 Hi. pose proof (proj1 (G sts it D B F ltac:(lia)) i s2 Hi) as K. rewrite P in K. exact K.
  - intros L. apply (G sts it D B F ltac:(lia)); [exact F1|lia].
Qed.
Print Assumptions C82_scandir.
(** Once the number of names is not what it was when the scan began, every call
    raises RuntimeError *)
Theorem C82_scandir_changed : forall it s1 sts, it_done it = false -> length (ents s1 (it_dir it)) <> length (it_names it) ->
  Forall (fun x => x = SChanged) (scans it (s1 :: sts)).
Proof.
  intros it s1 sts D H.
  assert (E : scan_next s1 it = (SChanged, mkit (it_path it) (it_abs it) (it_dir it) (it_names it) (it_pos it) true false)).
  { unfold scan_next. rewrite D. cbn zeta. rewrite map_length, (proj2 (Nat.eqb_neq _ _) H), orb_true_r. reflexivity. }
  cbn [scans]. rewrite E. cbn [fst snd]. constructor; [reflexivity|].
  induction sts as [|s2 sts IH]; cbn [scans]; [constructor|]. constructor; [reflexivity|exact IH].
Qed.
Print Assumptions C82_scandir_changed.

(** ** Examples *)
Definition c82_ops : list op := [Mkdir (L "/d") 493; Mkdir (L "/d/e") 493; CreateFile (L "/d/f") 33188 None None true true].
Definition c82_state : fs := run fd_init c82_ops.
Definition c82_1 : fs := run c82_state [Mkdir (L "/d/e/h") 493].
Definition c82_2 : fs := run c82_1 [Rmdir (L "/d/e/h")].
Definition c82_3 : fs := run c82_state [Rmdir (L "/d/e")].
Ltac nx := first [eapply nx_end | eapply nx_event; vm_compute; reflexivity | eapply nx_on; [discriminate|vm_compute; reflexivity|nx]].
(** a directory appears and another disappears during the walk *)
Example C82_topdown_nonvacuous : exists g, trace true false (L "/d") c82_state
  [mknext c82_state (WYield (L "/d") [L "e"] [L "f"]) [L "e"];
   mknext c82_1 (WYield (L "/d/e") [L "h"] []) [L "h"];
   mknext c82_2 (WError (L "/d/e/h") (OSErr ENOENT)) []] c82_2 g /\ nexts c82_2 true false g None [].
Proof.
  eexists. split.
  - change [mknext c82_state (WYield (L "/d") [L "e"] [L "f"]) [L "e"]; mknext c82_1 (WYield (L "/d/e") [L "h"] []) [L "h"]; mknext c82_2 (WError (L "/d/e/h") (OSErr ENOENT)) []]
      with (([] ++ [mknext c82_state (WYield (L "/d") [L "e"] [L "f"]) [L "e"]]) ++ [mknext c82_1 (WYield (L "/d/e") [L "h"] []) [L "h"]] ++ [mknext c82_2 (WError (L "/d/e/h") (OSErr ENOENT)) []]).
    rewrite app_assoc. eapply tr_next; [apply tr_calls; eapply tr_next; [apply tr_calls; eapply tr_next; [apply tr_start|nx]|nx]|nx].
  - vm_compute leave. nx.
Qed.
(** bottom-up, removing what was yielded *)
Example C82_bottomup_nonvacuous : exists g, trace false false (L "/d") c82_state
  [mknext c82_state (WYield (L "/d/e") [] []) [];
   mknext c82_3 (WYield (L "/d") [L "e"] [L "f"]) []] c82_3 g.
Proof.
  eexists.
  change [mknext c82_state (WYield (L "/d/e") [] []) []; mknext c82_3 (WYield (L "/d") [L "e"] [L "f"]) []]
    with (([] ++ [mknext c82_state (WYield (L "/d/e") [] []) []]) ++ [mknext c82_3 (WYield (L "/d") [L "e"] [L "f"]) []]).
  eapply tr_next; [apply tr_calls; eapply tr_next; [apply tr_start|nx]|nx].
Qed.
Definition c82_it : scan_it := mkit (L "/d") (L "/d") 2 [L "e"; L "f"] 0 false false.
Example C82_scandir_nonvacuous : scan_open c82_state (PStr (L "/d")) = Ok c82_it /\
  scans c82_it [c82_state; c82_1; c82_2] = [SEntry (mkent (L "e") (L "/d/e") (L "/d/e") true false); SEntry (mkent (L "f") (L "/d/f") (L "/d/f") false false); SStop] /\
  length (ents c82_3 2) <> length (it_names c82_it).
Proof. repeat (split; [vm_compute; reflexivity|]). vm_compute. discriminate. Qed.
(** os.scandir of a real filesystem goes on when an entry that was returned is
    removed; the fake raises RuntimeError instead of telling about "f" *)
Theorem C82_scandir_remove_refuted :
  scans c82_it [c82_state; c82_3] = [SEntry (mkent (L "e") (L "/d/e") (L "/d/e") true false); SChanged] /\
  exists_ c82_3 (L "/d/f") true = Ok true.
Proof. split; vm_compute; reflexivity. Qed.
Print Assumptions C82_scandir_remove_refuted.
