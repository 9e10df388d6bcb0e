(** * Strings and Python string helpers.

    Python [str]/[bytes] values are modelled as lists of 8-bit characters.
    Simplification: non-ASCII code points are outside the model; [.lower()] is
    ASCII-only.  Everything in this file models Python built-ins used by
    /repo/pyfakefs/fake_filesystem.py, not pyfakefs code itself. *)
From Coq Require Export Ascii String.
From Coq Require Export Arith ZArith NArith Lia Bool List.
Export ListNotations.
Open Scope list_scope.
Open Scope nat_scope.

Global Arguments Ascii.eqb : simpl never.

Notation str := (list ascii).

(** Literal strings: [L "abc"]. *)
Definition L (s : string) : str := list_ascii_of_string s.

Definition slash : ascii := "/"%char.
Definition backslash : ascii := "092"%char.
Definition colon : ascii := ":"%char.
Definition dotc : ascii := "."%char.

(** [a == b] on strings. *)
Fixpoint str_eqb (a b : str) : bool :=
  match a, b with
  | [], [] => true
  | x :: a', y :: b' => Ascii.eqb x y && str_eqb a' b'
  | _, _ => false
  end.

(** [s.startswith(p)]. *)
Fixpoint starts_with (p s : str) : bool :=
  match p, s with
  | [], _ => true
  | x :: p', y :: s' => Ascii.eqb x y && starts_with p' s'
  | _ :: _, [] => false
  end.

(** [s[-1:]] as an option. *)
Definition last_char (s : str) : option ascii :=
  match rev s with [] => None | c :: _ => Some c end.

(** [s.endswith(c)] for a one-character string. *)
Definition ends_with_char (c : ascii) (s : str) : bool :=
  match last_char s with Some d => Ascii.eqb d c | None => false end.

(** [s.endswith(p)]. *)
Definition ends_with (p s : str) : bool := starts_with (rev p) (rev s).

(** [s.split(c)]: always a non-empty list. *)
Fixpoint split_on (c : ascii) (s : str) : list str :=
  match s with
  | [] => [[]]
  | x :: s' =>
      if Ascii.eqb x c then [] :: split_on c s'
      else match split_on c s' with
           | [] => [[x]]                      (* unreachable *)
           | w :: ws => (x :: w) :: ws
           end
  end.

(** [sep.join(ws)]. *)
Fixpoint join_with (sep : str) (ws : list str) : str :=
  match ws with
  | [] => []
  | [w] => w
  | w :: ws' => w ++ sep ++ join_with sep ws'
  end.

(** [s.find(c, start)] relative to a suffix: index of the first [c] in [s]. *)
Fixpoint find_char (c : ascii) (s : str) : option nat :=
  match s with
  | [] => None
  | x :: s' => if Ascii.eqb x c then Some 0
               else match find_char c s' with Some n => Some (S n) | None => None end
  end.

(** Prefix before the last occurrence of [pat]: [s[:s.rfind(pat)]], [None]
    when [pat not in s].  Only used with a non-empty [pat]. *)
Fixpoint rfind_pre (pat s : str) : option str :=
  match s with
  | [] => None
  | x :: s' =>
      match rfind_pre pat s' with
      | Some pre => Some (x :: pre)
      | None => if starts_with pat s then Some [] else None
      end
  end.

(** Prefix before the first occurrence: [s.partition(pat)[0]]; the whole string
    when [pat not in s]. *)
Fixpoint partition_pre (pat s : str) : str :=
  if starts_with pat s then [] else
  match s with
  | [] => []
  | x :: s' => x :: partition_pre pat s'
  end.

(** [c.lower()] (ASCII only). *)
Definition lower_char (c : ascii) : ascii :=
  let n := nat_of_ascii c in
  if (65 <=? n) && (n <=? 90) then ascii_of_nat (n + 32) else c.
Definition lower (s : str) : str := map lower_char s.

(** [s.replace(a, b)] for one-character strings. *)
Definition replace_char (a b : ascii) (s : str) : str :=
  map (fun x => if Ascii.eqb x a then b else x) s.

(** [s in l] for a list of strings. *)
Definition str_in (s : str) (l : list str) : bool := existsb (str_eqb s) l.

(** Association lists standing for Python dicts (insertion ordered). *)
Fixpoint assoc {A} (k : str) (l : list (str * A)) : option A :=
  match l with
  | [] => None
  | (k', v) :: l' => if str_eqb k k' then Some v else assoc k l'
  end.

(** [del d[k]] *)
Fixpoint del_assoc {A} (k : str) (l : list (str * A)) : list (str * A) :=
  match l with
  | [] => []
  | (k', v) :: l' => if str_eqb k k' then l' else (k', v) :: del_assoc k l'
  end.

(** [d[k] = v]: keeps the position of an existing key, appends a new one. *)
Fixpoint set_assoc {A} (k : str) (v : A) (l : list (str * A)) : list (str * A) :=
  match l with
  | [] => [(k, v)]
  | (k', v') :: l' => if str_eqb k k' then (k', v) :: l' else (k', v') :: set_assoc k v l'
  end.

(** ** Basic facts *)
Lemma str_eqb_refl a : str_eqb a a = true.
Proof. induction a as [|x a IH]; simpl; [reflexivity|]. rewrite Ascii.eqb_refl, IH. reflexivity. Qed.

Lemma str_eqb_eq a b : str_eqb a b = true <-> a = b.
Proof.
  split; [|intros ->; apply str_eqb_refl].
  revert b; induction a as [|x a IH]; intros [|y b]; simpl; try congruence.
  intros H; apply andb_true_iff in H; destruct H as [H1 H2].
  apply Ascii.eqb_eq in H1; apply IH in H2; congruence.
Qed.

Lemma str_eqb_spec a b : reflect (a = b) (str_eqb a b).
Proof.
  destruct (str_eqb a b) eqn:E; constructor.
  - apply str_eqb_eq, E.
  - intros ->; rewrite str_eqb_refl in E; discriminate.
Qed.

Lemma str_eqb_neq a b : str_eqb a b = false <-> a <> b.
Proof. destruct (str_eqb_spec a b); split; congruence. Qed.

Lemma str_eqb_sym a b : str_eqb a b = str_eqb b a.
Proof. destruct (str_eqb_spec a b), (str_eqb_spec b a); congruence. Qed.

Lemma str_eq_dec (a b : str) : {a = b} + {a <> b}.
Proof. destruct (str_eqb_spec a b); [left|right]; assumption. Qed.

Lemma starts_with_spec p s : starts_with p s = true <-> exists t, s = p ++ t.
Proof.
  revert s; induction p as [|x p IH]; intros s; simpl.
  - split; [intros _; exists s; reflexivity | reflexivity].
  - destruct s as [|y s].
    + split; [discriminate | intros [t Ht]; discriminate].
    + rewrite andb_true_iff, Ascii.eqb_eq, IH. split.
      * intros [-> [t ->]]; exists t; reflexivity.
      * intros [t Ht]; inversion Ht; subst; split; [reflexivity|exists t; reflexivity].
Qed.

Lemma last_char_app s c : last_char (s ++ [c]) = Some c.
Proof. unfold last_char; rewrite rev_app_distr; reflexivity. Qed.

Lemma last_char_spec s c : last_char s = Some c <-> exists t, s = t ++ [c].
Proof.
  split.
  - unfold last_char; intros H; destruct (rev s) as [|d r] eqn:E; [discriminate|].
    injection H as ->. exists (rev r).
    rewrite <- (rev_involutive s), E; reflexivity.
  - intros [t ->]; apply last_char_app.
Qed.

Lemma ends_with_char_spec c s : ends_with_char c s = true <-> exists t, s = t ++ [c].
Proof.
  unfold ends_with_char. destruct (last_char s) as [d|] eqn:E.
  - apply last_char_spec in E; destruct E as [t ->].
    rewrite Ascii.eqb_eq; split.
    + intros ->; exists t; reflexivity.
    + intros [u Hu]; apply app_inj_tail in Hu; apply Hu.
  - split; [discriminate|]. intros [t ->]. rewrite last_char_app in E; discriminate.
Qed.

(** split / join *)
Lemma split_on_nonempty c s : split_on c s <> [].
Proof. induction s as [|x s IH]; simpl; [discriminate|]. destruct (Ascii.eqb x c); [discriminate|]. destruct (split_on c s); discriminate. Qed.

Lemma join_split c s : join_with [c] (split_on c s) = s.
Proof.
  induction s as [|x s IH]; [reflexivity|]. simpl.
  destruct (Ascii.eqb x c) eqn:E.
  - apply Ascii.eqb_eq in E; subst x.
    destruct (split_on c s) as [|w ws] eqn:Es; [destruct (split_on_nonempty c s Es)|].
    cbn [join_with]. cbn [app]. f_equal. exact IH.
  - destruct (split_on c s) as [|w ws] eqn:Es; [destruct (split_on_nonempty c s Es)|].
    destruct ws as [|w2 ws]; cbn [join_with] in *; rewrite <- IH; reflexivity.
Qed.

(** No word of a split contains the separator. *)
Lemma split_on_clean c s w : In w (split_on c s) -> ~ In c w.
Proof.
  revert w; induction s as [|x s IH]; simpl; intros w.
  - intros [<-|[]]; simpl; tauto.
  - destruct (Ascii.eqb x c) eqn:E.
    + intros [<-|H]; [simpl; tauto|]. apply IH, H.
    + apply Ascii.eqb_neq in E.
      destruct (split_on c s) as [|v vs] eqn:Es.
      * intros [<-|[]]; simpl; intros [H|[]]; congruence.
      * intros [<-|H].
        -- simpl; intros [H|H]; [congruence|]. apply (IH v); [left; reflexivity|exact H].
        -- apply IH; right; exact H.
Qed.

Lemma split_on_app_sep c u s :
  ~ In c u -> split_on c (u ++ c :: s) = u :: split_on c s.
Proof.
  induction u as [|x u IH]; intros Hn; simpl.
  - rewrite Ascii.eqb_refl; reflexivity.
  - destruct (Ascii.eqb x c) eqn:E.
    + apply Ascii.eqb_eq in E; subst; exfalso; apply Hn; left; reflexivity.
    + rewrite IH; [reflexivity|]. intros H; apply Hn; right; exact H.
Qed.

Lemma split_on_word c u : ~ In c u -> split_on c u = [u].
Proof.
  induction u as [|x u IH]; intros Hn; simpl; [reflexivity|].
  destruct (Ascii.eqb x c) eqn:E.
  - apply Ascii.eqb_eq in E; subst; exfalso; apply Hn; left; reflexivity.
  - rewrite IH; [reflexivity|]. intros H; apply Hn; right; exact H.
Qed.

Lemma split_join c ws :
  ws <> [] -> (forall w, In w ws -> ~ In c w) -> split_on c (join_with [c] ws) = ws.
Proof.
  induction ws as [|w ws IH]; intros Hne Hcl; [congruence|].
  destruct ws as [|w2 ws].
  - apply split_on_word, Hcl; left; reflexivity.
  - change (join_with [c] (w :: w2 :: ws)) with (w ++ c :: join_with [c] (w2 :: ws)).
    rewrite split_on_app_sep by (apply Hcl; left; reflexivity).
    f_equal. apply IH; [discriminate|]. intros v Hv; apply Hcl; right; exact Hv.
Qed.

Lemma split_on_app_mid c a b : split_on c (a ++ c :: b) = split_on c a ++ split_on c b.
Proof.
  induction a as [|x a IH]; simpl.
  - rewrite Ascii.eqb_refl; reflexivity.
  - rewrite IH. destruct (Ascii.eqb x c); [reflexivity|].
    destruct (split_on c a) as [|w ws] eqn:E; [destruct (split_on_nonempty c a E)|]. reflexivity.
Qed.

Lemma join_with_app c ws vs :
  ws <> [] -> vs <> [] -> join_with [c] (ws ++ vs) = join_with [c] ws ++ c :: join_with [c] vs.
Proof.
  intros Hw Hv. induction ws as [|w ws IH]; [congruence|].
  destruct ws as [|w2 ws].
  - destruct vs as [|v vs]; [congruence|]. reflexivity.
  - cbn [app]. change (join_with [c] (w :: w2 :: ws ++ vs)) with (w ++ c :: join_with [c] ((w2 :: ws) ++ vs)).
    rewrite IH by discriminate.
    change (join_with [c] (w :: w2 :: ws)) with (w ++ c :: join_with [c] (w2 :: ws)).
    rewrite <- app_assoc. reflexivity.
Qed.

(** association lists *)
Lemma assoc_In {A} k (v : A) l : assoc k l = Some v -> In (k, v) l.
Proof.
  induction l as [|[k' v'] l IH]; simpl; [discriminate|].
  destruct (str_eqb_spec k k') as [->|Hn].
  - intros H; injection H as ->; left; reflexivity.
  - intros H; right; apply IH, H.
Qed.

Lemma assoc_NoDup {A} k (v : A) l :
  NoDup (map fst l) -> In (k, v) l -> assoc k l = Some v.
Proof.
  induction l as [|[k' v'] l IH]; simpl; intros Hnd; [tauto|].
  inversion Hnd as [|? ? Hni Hnd']; subst.
  intros [H|H].
  - injection H as -> ->; rewrite str_eqb_refl; reflexivity.
  - destruct (str_eqb_spec k k') as [->|Hn]; [|apply IH; assumption].
    exfalso; apply Hni. apply (in_map fst) in H; exact H.
Qed.

Lemma assoc_None {A} k (l : list (str * A)) : assoc k l = None <-> ~ In k (map fst l).
Proof.
  induction l as [|[k' v'] l IH]; simpl; [tauto|].
  destruct (str_eqb_spec k k') as [->|Hn].
  - split; [discriminate | intros H; exfalso; apply H; left; reflexivity].
  - rewrite IH; split; intros H; [intros [H1|H1]; [congruence|tauto] | tauto].
Qed.

Lemma assoc_app {A} k (l1 l2 : list (str * A)) :
  assoc k (l1 ++ l2) = match assoc k l1 with Some v => Some v | None => assoc k l2 end.
Proof. induction l1 as [|[k' v'] l1 IH]; simpl; [reflexivity|]. destruct (str_eqb k k'); [reflexivity|exact IH]. Qed.

Lemma assoc_set_same {A} k (v : A) l : assoc k (set_assoc k v l) = Some v.
Proof.
  induction l as [|[k' v'] l IH]; simpl; [rewrite str_eqb_refl; reflexivity|].
  destruct (str_eqb k k') eqn:E; simpl; rewrite E; [reflexivity|exact IH].
Qed.

Lemma assoc_set_other {A} k k2 (v : A) l : k2 <> k -> assoc k2 (set_assoc k v l) = assoc k2 l.
Proof.
  intros Hn. induction l as [|[k' v'] l IH]; simpl.
  - destruct (str_eqb_spec k2 k); [congruence|reflexivity].
  - destruct (str_eqb_spec k k') as [->|Hk]; simpl.
    + destruct (str_eqb_spec k2 k'); [congruence|reflexivity].
    + rewrite IH; reflexivity.
Qed.

Lemma assoc_del_other {A} k k2 (l : list (str * A)) : k2 <> k -> assoc k2 (del_assoc k l) = assoc k2 l.
Proof.
  intros Hn. induction l as [|[k' v'] l IH]; simpl; [reflexivity|].
  destruct (str_eqb_spec k k') as [->|Hk]; simpl.
  - destruct (str_eqb_spec k2 k'); [congruence|reflexivity].
  - rewrite IH; reflexivity.
Qed.

Lemma in_del_assoc {A} k (x : str * A) l : In x (del_assoc k l) -> In x l.
Proof.
  induction l as [|[k' v'] l IH]; simpl; [tauto|].
  destruct (str_eqb k k'); [tauto|]. simpl; intros [H|H]; [left; exact H|right; apply IH, H].
Qed.

Lemma NoDup_del_assoc {A} k (l : list (str * A)) : NoDup (map fst l) -> NoDup (map fst (del_assoc k l)).
Proof.
  induction l as [|[k' v'] l IH]; simpl; intros H; [constructor|].
  inversion H as [|? ? Hni Hnd]; subst.
  destruct (str_eqb k k'); [exact Hnd|]. simpl. constructor; [|apply IH, Hnd].
  intros Hin. apply Hni. apply in_map_iff in Hin. destruct Hin as [[a b] [Ha Hb]]. simpl in Ha; subst a.
  apply in_del_assoc in Hb. apply (in_map fst) in Hb; exact Hb.
Qed.

Lemma assoc_del_same {A} k (l : list (str * A)) : NoDup (map fst l) -> assoc k (del_assoc k l) = None.
Proof.
  induction l as [|[k' v'] l IH]; simpl; intros H; [reflexivity|].
  inversion H as [|? ? Hni Hnd]; subst.
  destruct (str_eqb_spec k k') as [->|Hk].
  - apply assoc_None; exact Hni.
  - simpl. destruct (str_eqb_spec k k'); [congruence|]. apply IH, Hnd.
Qed.

Lemma assoc_in_keys {A} k (l : list (str * A)) : In k (map fst l) -> exists v, assoc k l = Some v.
Proof.
  intros H. destruct (assoc k l) as [v|] eqn:E; [exists v; reflexivity|].
  apply assoc_None in E; tauto.
Qed.
