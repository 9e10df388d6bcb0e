(** * C52: case-insensitive lookup. *)
From Verif Require Import CaseThm ResThm SysModel.

(** On a case-insensitive filesystem a path exists iff some spelling of it is
    in the tree, and what resolve returns is the object under that spelling. *)
Theorem C52_lookup_partial : forall s names,
  ci_like (f_cfg s) -> sane s -> one_spelling s ->
  plain slash names -> ~ null_spelled s names -> no_link_spelled s names ->
  (exists_ s (abs_path slash names) false = Ok true <->
     exists real o, spelling real names /\ at_names s real = Some o) /\
  (forall check o, resolve s (abs_path slash names) check = Ok o <->
     exists real, spelling real names /\ at_names s real = Some o /\
       searchable s root_oid real /\ may_read s check root_oid real).
Proof.
  intros s names Hc [Hcwd Hdnl Hroot] H1 Hp Hnn Hlf.
  pose proof (folded_good s Hcwd Hdnl Hroot) as Hg.
  assert (Hn : ~ is_null (folded s) (map lower names)).
  { intros [A B]. apply Hnn. split; [intros ->; apply A; reflexivity|]. unfold same_letters. rewrite lower_abs_path. exact B. }
  assert (Hnl : forall pre n l rest, ~ meets_link (folded s) (map lower names) pre n l rest).
  { intros pre n l rest (E & A & B).
    assert (E' : exists a b, names = a ++ b /\ map lower a = pre ++ [n]).
    { exists (firstn (length (pre ++ [n])) names), (skipn (length (pre ++ [n])) names). split; [symmetry; apply firstn_skipn|].
      rewrite <- firstn_map, E. change (pre ++ n :: rest) with (pre ++ [n] ++ rest). rewrite app_assoc, firstn_app, Nat.sub_diag, firstn_all, app_nil_r. reflexivity. }
    destruct E' as (a & b & -> & Ea). unfold at_names in A. rewrite <- Ea in A. apply (tree_lower s H1) in A. destruct A as (real & Hs & A).
    rewrite (Hlf a b real l eq_refl Hs A : is_link (folded s) l = false) in B. discriminate. }
  assert (Hres : forall r, resolved (folded s) (map lower names) r <-> r = map lower names).
  { intros r. split.
    - intros [[K _]|(_ & k & _ & K)]; [contradiction|]. inversion K as [? _|? ? pre n l rest t ? Hm]; subst; [reflexivity|]. exfalso. apply (Hnl pre n l rest Hm).
    - intros ->. right. split; [exact Hn|]. exists 0. split; [lia|]. apply res_done, Hnl. }
  assert (Hpl : plain slash (map lower names)) by (apply plain_lower, Hp).
  split.
  - rewrite (exists_lower s Hc H1 Hcwd Hdnl Hroot names Hp Hn). rewrite (exists_plain (folded s) (map lower names) Hg Hpl). split.
    + intros [K|(rr & o & Hr & Ho)]; [contradiction|]. apply Hres in Hr. subst rr. apply (tree_lower s H1) in Ho.
      destruct Ho as (real & A & B). exists real, o. auto.
    + intros (real & o & A & B). right. exists (map lower names), o. split; [apply Hres; reflexivity|]. apply (tree_lower s H1). exists real. auto.
  - intros check o.
    rewrite (resolve_lower s Hc H1 Hcwd Hdnl Hroot names check Hp) by (split; [exact Hn|]; intros r Hr; apply Hres in Hr; subst r; exact Hn).
    rewrite (resolve_plain (folded s) (map lower names) check o Hg Hpl).
    split.
    + intros (rr & Hr & [[K _]|(_ & Ho & Hs & Hm)]); apply Hres in Hr; subst rr; [contradiction|].
      pose proof Ho as Ho'. apply (tree_lower s H1) in Ho'. destruct Ho' as (real & A & B). exists real.
      destruct (perms_lower s H1 real names root_oid o check A B) as [P1 P2]. split; [exact A|]. split; [exact B|]. split; [apply P1, Hs|apply P2, Hm].
    + intros (real & A & B & Hs & Hm). exists (map lower names). split; [apply Hres; reflexivity|]. right. split; [exact Hn|].
      destruct (perms_lower s H1 real names root_oid o check A B) as [P1 P2]. split; [apply (tree_lower s H1); exists real; auto|].
      split; [apply P1, Hs|apply P2, Hm].
Qed.
Print Assumptions C52_lookup_partial.

(** With symbolic links: a case-insensitive filesystem answers as the
    case-sensitive one does that has all names and link texts in lower case. *)
Theorem C52_as_folded : forall s names,
  ci_like (f_cfg s) -> sane s -> one_spelling s -> plain slash names ->
  ~ is_null (folded s) (map lower names) ->
  exists_ s (abs_path slash names) false = exists_ (folded s) (abs_path slash (map lower names)) false /\
  ((forall r, resolved (folded s) (map lower names) r -> ~ is_null (folded s) r) ->
   forall check, resolve s (abs_path slash names) check = resolve (folded s) (abs_path slash (map lower names)) check).
Proof.
  intros s names Hc [Hcwd Hdnl Hroot] H1 Hp Hn. split; [apply (exists_lower s Hc H1 Hcwd Hdnl Hroot names Hp Hn)|].
  intros Hr check. apply (resolve_lower s Hc H1 Hcwd Hdnl Hroot names check Hp). split; assumption.
Qed.
Print Assumptions C52_as_folded.

(** Two spellings of the same path find the same object. *)
Theorem C52_spelling_irrelevant : forall s names names',
  ci_like (f_cfg s) -> sane s -> one_spelling s -> plain slash names -> spelling names names' ->
  ~ is_null (folded s) (map lower names) ->
  exists_ s (abs_path slash names) false = exists_ s (abs_path slash names') false /\
  ((forall r, resolved (folded s) (map lower names) r -> ~ is_null (folded s) r) ->
   forall check, resolve s (abs_path slash names) check = resolve s (abs_path slash names') check).
Proof.
  intros s names names' Hc Hs H1 Hp Hsp Hn.
  assert (E : map lower names = map lower names').
  { clear - Hsp. induction Hsp as [|a b l l' E H IH]; [reflexivity|]. cbn [map]. rewrite IH. f_equal. exact E. }
  assert (Hp' : plain slash names') by (apply plain_lower; rewrite <- E; apply plain_lower, Hp).
  destruct (C52_as_folded s names Hc Hs H1 Hp Hn) as [A B].
  rewrite E in Hn. destruct (C52_as_folded s names' Hc Hs H1 Hp' Hn) as [A' B']. rewrite E in *. split; [congruence|].
  intros Hr check. rewrite (B Hr), (B' Hr). reflexivity.
Qed.
Print Assumptions C52_spelling_irrelevant.

(** On a case-sensitive filesystem the name must be exact. *)
Theorem C52_case_sensitive_exact : forall c s names, linux_like c -> reachable c s ->
  plain (sepc s) names -> ~ is_null s names -> (forall pre n l rest, ~ meets_link s names pre n l rest) ->
  (exists_ s (abs_path (sepc s) names) false = Ok true <-> exists o, at_names s names = Some o) /\
  (forall check o, resolve s (abs_path (sepc s) names) check = Ok o ->  at_names s names = Some o).
Proof.
  intros c s names Hl Hr Hp Hn Hnl. pose proof (Ginv_good s (proj1 (reachable_GP c s Hl Hr))) as Hg.
  assert (Hres : forall r, resolved s names r <-> r = names).
  { intros r. split.
    - intros [[K _]|(_ & k & _ & K)]; [contradiction|]. inversion K as [? _|? ? pre n l rest t ? Hm]; subst; [reflexivity|]. exfalso. apply (Hnl pre n l rest Hm).
    - intros ->. right. split; [exact Hn|]. exists 0. split; [lia|]. apply res_done, Hnl. }
  split.
  - rewrite (exists_plain s names Hg Hp). split.
    + intros [K|(rr & o & A & B)]; [contradiction|]. apply Hres in A. subst rr. exists o. exact B.
    + intros (o & Ho). right. exists names, o. split; [apply Hres; reflexivity|exact Ho].
  - intros check o. rewrite (resolve_plain s names check o Hg Hp). intros (rr & A & B). apply Hres in A. subst rr.
    destruct B as [[K _]|(_ & B & _)]; [contradiction|exact B].
Qed.
Print Assumptions C52_case_sensitive_exact.

(** A macOS tree: /Dir/File.txt and a link /Lnk -> DIR. *)
Definition c52_ops := [Mkdir (L "/Dir") 511; CreateFile (L "/Dir/File.txt") 33188 (Some (L "hi")) None false false; Symlink (L "DIR") (L "/Lnk")].
Definition c52_state := run (init macos_cfg None 18 0 0 0) c52_ops.
Lemma c52_reachable : reachable macos_cfg c52_state.
Proof. exists None, 18%N, 0%Z, 0%Z, 0%Z, c52_ops. reflexivity. Qed.
Lemma c52_ci : ci_like (f_cfg c52_state).
Proof. constructor; vm_compute; reflexivity. Qed.
Lemma c52_sane : sane c52_state.
Proof.
  constructor; [vm_compute; reflexivity| |vm_compute; reflexivity].
  intros o. do 6 (destruct o as [|o]; [vm_compute; congruence|]). vm_compute. congruence.
Qed.
Lemma c52_one : one_spelling c52_state.
Proof.
  intros d. do 6 (destruct d as [|d]; [vm_compute; repeat constructor; cbn; intuition discriminate|]). vm_compute. constructor.
Qed.
Lemma c52_no_link : no_link_spelled c52_state [L "dIR"; L "file.TXT"].
Proof.
  intros pre rest real o E Hs Ho. unfold at_names in Ho.
  assert (Hcases : pre = [] \/ pre = [L "dIR"] \/ pre = [L "dIR"; L "file.TXT"]).
  { destruct pre as [|a [|b [|x pre]]]; [auto| | |].
    - injection E as <- _. auto.
    - injection E as <- <- _. auto.
    - injection E as _ _ E. discriminate E. }
  assert (K : tree_at (folded c52_state) root_oid (map lower pre) = Some o) by (apply (tree_lower c52_state c52_one); exists real; auto).
  clear E Hs Ho. destruct Hcases as [->|[->| ->]]; vm_compute in K; injection K as <-; vm_compute; reflexivity.
Qed.
Example C52_case : reachable macos_cfg c52_state /\ ci_like (f_cfg c52_state) /\ sane c52_state /\ one_spelling c52_state /\
  plain slash [L "dIR"; L "file.TXT"] /\ ~ null_spelled c52_state [L "dIR"; L "file.TXT"] /\
  no_link_spelled c52_state [L "dIR"; L "file.TXT"] /\
  exists_ c52_state (L "/dIR/file.TXT") false = Ok true /\ exists_ c52_state (L "/dIR/file") false = Ok false /\
  ~ is_null (folded c52_state) (map lower [L "lNK"; L "FILE.txt"]) /\
  resolve c52_state (L "/lNK/FILE.txt") true = resolve c52_state (L "/Dir/File.txt") true.
Proof.
  split; [exact c52_reachable|]. split; [exact c52_ci|]. split; [exact c52_sane|]. split; [exact c52_one|].
  split; [split; repeat constructor; try discriminate; cbn; intuition discriminate|].
  split; [intros [_ K]; vm_compute in K; discriminate K|]. split; [exact c52_no_link|].
  split; [vm_compute; reflexivity|]. split; [vm_compute; reflexivity|].
  split; [intros [_ K]; vm_compute in K; discriminate K|vm_compute; reflexivity].
Qed.

(** "An exact match wins" is false: in a directory without read permission the
    existence test of os.mkdir does not see a dangling link, so names that
    differ in case only can come to be together, and then the path that is
    spelled exactly like the second one finds the first. *)
Definition c52_bad_ops := [Mkdir (L "/d") 511; Symlink (L "nowhere") (L "/d/a"); Chmod (PStr (L "/d")) 219 true;
  Mkdir (L "/d/A") 511; Chmod (PStr (L "/d")) 511 true].
Definition c52_bad := run (init macos_cfg None 18 0 0 0) c52_bad_ops.
Theorem C52_exact_match_wins_refuted : reachable macos_cfg c52_bad /\
  listdir c52_bad (PStr (L "/d")) = Ok [L "a"; L "A"] /\
  exists l d, at_names c52_bad [L "d"; L "a"] = Some l /\ at_names c52_bad [L "d"; L "A"] = Some d /\ l <> d /\
    is_dirobj c52_bad d = true /\
    exists_ c52_bad (L "/d/A") false = Ok true /\ resolve c52_bad (L "/d/A") true = Ok l /\ isdir c52_bad (L "/d/A") true = Ok false.
Proof.
  split; [exists None, 18%N, 0%Z, 0%Z, 0%Z, c52_bad_ops; reflexivity|]. split; [vm_compute; reflexivity|].
  exists 3, 4. split; [vm_compute; reflexivity|]. split; [vm_compute; reflexivity|]. split; [discriminate|].
  split; [vm_compute; reflexivity|]. split; [vm_compute; reflexivity|]. split; vm_compute; reflexivity.
Qed.
Print Assumptions C52_exact_match_wins_refuted.
