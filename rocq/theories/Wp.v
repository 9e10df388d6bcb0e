(** * Reasoning about the state-and-exception monad. *)
From Verif Require Export SysModel.

(** [wp m s Q]: running [m] in [s] ends in a result and a state satisfying [Q]. *)
Definition wp {A} (m : M A) (s : fs) (Q : res A -> fs -> Prop) : Prop := Q (fst (m s)) (snd (m s)).

Lemma wp_ret {A} (a : A) s (Q : res A -> fs -> Prop) : Q (Ok a) s -> wp (ret a) s Q.
Proof. exact (fun H => H). Qed.
Lemma wp_raise {A} e s (Q : res A -> fs -> Prop) : Q (Err e) s -> wp (raise e) s Q.
Proof. exact (fun H => H). Qed.
Lemma wp_raise_os {A} e s (Q : res A -> fs -> Prop) : Q (Err (OSErr e)) s -> wp (raise_os e) s Q.
Proof. exact (fun H => H). Qed.
Lemma wp_gets {A} (f : fs -> A) s (Q : res A -> fs -> Prop) : Q (Ok (f s)) s -> wp (gets f) s Q.
Proof. exact (fun H => H). Qed.
Lemma wp_lift {A} (f : fs -> res A) s (Q : res A -> fs -> Prop) : Q (f s) s -> wp (lift f) s Q.
Proof. exact (fun H => H). Qed.
Lemma wp_modify f s (Q : res unit -> fs -> Prop) : Q (Ok tt) (f s) -> wp (modify f) s Q.
Proof. exact (fun H => H). Qed.
Lemma wp_conseq {A} (m : M A) s (Q Q' : res A -> fs -> Prop) :
  wp m s Q -> (forall r s', Q r s' -> Q' r s') -> wp m s Q'.
Proof. intros H HQ. apply HQ, H. Qed.
Lemma wp_bind {A B} (m : M A) (k : A -> M B) s (Q : res B -> fs -> Prop) :
  wp m s (fun r s' => match r with Ok a => wp (k a) s' Q | Err e => Q (Err e) s' end) ->
  wp (bind m k) s Q.
Proof. unfold wp, bind. destruct (m s) as [[a|e] s']; exact (fun H => H). Qed.
Lemma wp_bind_inv {A B} (m : M A) (k : A -> M B) s (Q : res B -> fs -> Prop) :
  wp (bind m k) s Q ->
  wp m s (fun r s' => match r with Ok a => wp (k a) s' Q | Err e => Q (Err e) s' end).
Proof. unfold wp, bind. destruct (m s) as [[a|e] s']; exact (fun H => H). Qed.
Lemma wp_catch {A} (m : M A) h s (Q : res A -> fs -> Prop) :
  wp m s (fun r s' => match r with Ok a => Q (Ok a) s' | Err e => wp (h e) s' Q end) ->
  wp (catch m h) s Q.
Proof. unfold wp, catch. destruct (m s) as [[a|e] s']; exact (fun H => H). Qed.
Lemma wp_and {A} (m : M A) s (Q Q' : res A -> fs -> Prop) :
  wp m s Q -> wp m s Q' -> wp m s (fun r s' => Q r s' /\ Q' r s').
Proof. intros H H'; split; assumption. Qed.
Lemma wp_elim {A} (m : M A) s (Q : res A -> fs -> Prop) r s' : wp m s Q -> m s = (r, s') -> Q r s'.
Proof. unfold wp. intros H E. rewrite E in H. exact H. Qed.
Lemma wp_intro {A} (m : M A) s (Q : res A -> fs -> Prop) :
  (forall r s', m s = (r, s') -> Q r s') -> wp m s Q.
Proof. unfold wp. intros H. apply H. destruct (m s); reflexivity. Qed.
Lemma wp_bind_gets {A B} (f : fs -> A) (k : A -> M B) s (Q : res B -> fs -> Prop) :
  wp (k (f s)) s Q -> wp (bind (gets f) k) s Q.
Proof. exact (fun H => H). Qed.
Lemma wp_bind_modify {B} f (k : unit -> M B) s (Q : res B -> fs -> Prop) :
  wp (k tt) (f s) Q -> wp (bind (modify f) k) s Q.
Proof. exact (fun H => H). Qed.
Lemma wp_bind_lift {A B} (f : fs -> res A) (k : A -> M B) s (Q : res B -> fs -> Prop) :
  match f s with Ok a => wp (k a) s Q | Err e => Q (Err e) s end -> wp (bind (lift f) k) s Q.
Proof. unfold wp, bind, lift. destruct (f s); exact (fun H => H). Qed.
Lemma wp_bind_ret {A B} (a : A) (k : A -> M B) s (Q : res B -> fs -> Prop) :
  wp (k a) s Q -> wp (bind (ret a) k) s Q.
Proof. exact (fun H => H). Qed.

(** [preserves P m]: [m] keeps the invariant, whether it succeeds or raises. *)
Definition preserves {A} (P : fs -> Prop) (m : M A) : Prop := forall s, P s -> P (snd (m s)).
(** a read-only computation *)
Definition pure {A} (m : M A) : Prop := forall s, snd (m s) = s.

(** The state is related to the start state by a preorder. *)
Definition keeps {A} (R : fs -> fs -> Prop) (m : M A) : Prop := forall s, R s (snd (m s)).

Lemma wp_keeps {A} R (m : M A) s : keeps R m -> wp m s (fun _ s' => R s s').
Proof. intros H. apply H. Qed.

Ltac wstep :=
  match goal with
  | |- wp (bind (gets _) _) _ _ => apply wp_bind_gets; cbv beta
  | |- wp (bind (modify _) _) _ _ => apply wp_bind_modify; cbv beta
  | |- wp (bind (ret _) _) _ _ => apply wp_bind_ret; cbv beta
  | |- wp (bind (lift _) _) _ _ => apply wp_bind_lift; cbv beta
  | |- wp (bind (bind _ _) _) _ _ => apply wp_bind
  | |- wp (bind (raise _) _) _ _ => apply wp_bind, wp_raise
  | |- wp (bind (raise_os _) _) _ _ => apply wp_bind, wp_raise_os
  | |- wp (ret _) _ _ => apply wp_ret
  | |- wp (raise _) _ _ => apply wp_raise
  | |- wp (raise_os _) _ _ => apply wp_raise_os
  | |- wp (gets _) _ _ => apply wp_gets
  | |- wp (lift _) _ _ => apply wp_lift
  | |- wp (modify _) _ _ => apply wp_modify
  end.
