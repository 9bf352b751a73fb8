(** * Lemmas: paths that are the same but for repeated slashes. *)
From Verif Require Import Base M_Fs L_Fs M_Split M_Rename S_Rename.

Definition names (acc p : bytes) : list bytes := filter (fun c => negb (bytes_eqb c [])) (components acc p).
Definition trail (p : bytes) : list bytes := if last p 0 =? 47 then [[]] else [].
Fixpoint joined (l : list bytes) : bytes :=
  match l with [] => [] | [x] => x | x :: r => x ++ 47 :: joined r end.

Lemma squeezed_cons c r : squeezed (c :: r) = if (c =? 47) && is_absolute r then squeezed r else c :: squeezed r.
Proof.
  destruct r as [|d r].
  - cbn [is_absolute]. rewrite andb_false_r. destruct c as [|c]; [reflexivity|]. do 6 (destruct c as [c|c|]; try reflexivity).
  - cbn [is_absolute]. destruct (c =? 47) eqn:E.
    + apply N.eqb_eq in E. subst c. destruct (d =? 47) eqn:F.
      * apply N.eqb_eq in F. subst d. reflexivity.
      * cbn [andb]. destruct d as [|d]; [reflexivity|]. do 6 (destruct d as [d|d|]; try reflexivity). discriminate F.
    + cbn [andb]. destruct c as [|c]; [reflexivity|]. do 6 (destruct c as [c|c|]; try reflexivity). discriminate E.
Qed.

Lemma names_slash acc r : names acc (47 :: r) = (match acc with [] => [] | _ => [rev acc] end) ++ names [] r.
Proof.
  unfold names. cbn [components N.eqb Pos.eqb filter]. destruct acc as [|x acc]; [reflexivity|].
  destruct (bytes_eqb_spec (rev (x :: acc)) []) as [E|E]; [|reflexivity].
  cbn [rev] in E. now destruct (rev acc).
Qed.
Lemma names_other acc c r : (c =? 47) = false -> names acc (c :: r) = names (c :: acc) r.
Proof. intros E. unfold names. cbn [components]. now rewrite E. Qed.
Lemma names_some acc p : acc <> [] -> exists x l, names acc p = x :: l.
Proof.
  revert acc. induction p as [|c r IH]; intros acc H.
  - unfold names. cbn [components filter]. destruct (bytes_eqb_spec (rev acc) []) as [E|E]; [|cbn; eauto].
    elim H. rewrite <- (rev_involutive acc), E. reflexivity.
  - destruct (c =? 47) eqn:E.
    + apply N.eqb_eq in E. subst c. rewrite names_slash. destruct acc; [now elim H|]. cbn. eauto.
    + rewrite (names_other _ _ _ E). apply IH. discriminate.
Qed.
Lemma joined_cons x l : l <> [] -> joined (x :: l) = x ++ 47 :: joined l.
Proof. destruct l; [congruence|reflexivity]. Qed.
Lemma last_cons (x : byte) y l : last (x :: y :: l) 0 = last (y :: l) 0.
Proof. reflexivity. Qed.
Lemma trail_app a c p : trail (a ++ c :: p) = trail (c :: p).
Proof. unfold trail. induction a as [|x a IH]; [reflexivity|]. rewrite <- IH. cbn [List.app]. destruct (a ++ c :: p) eqn:E; [now destruct a|]. reflexivity. Qed.

Lemma render : forall r,
  (forall acc, acc <> [] -> ~ In 47 acc -> joined (names acc r ++ trail (rev acc ++ r)) = rev acc ++ squeezed r) /\
  (forall x, joined (x :: names [] r ++ trail (47 :: r)) = x ++ squeezed (47 :: r)).
Proof.
  induction r as [|c r [IH1 IH2]]; split.
  - intros acc H K. unfold names. cbn [components filter]. destruct (bytes_eqb_spec (rev acc) []) as [E|E].
    { elim H. rewrite <- (rev_involutive acc), E. reflexivity. }
    cbn [negb]. rewrite !app_nil_r. unfold trail. destruct (last (rev acc) 0 =? 47) eqn:F; [|reflexivity].
    apply N.eqb_eq in F. elim K. apply in_rev. rewrite <- F. destruct (rev acc) as [|y l] using rev_ind; [now elim E|].
    rewrite last_last. apply in_or_app. right. now left.
  - intros x. reflexivity.
  - intros acc H K. destruct (c =? 47) eqn:E.
    + apply N.eqb_eq in E. subst c. rewrite names_slash, trail_app. destruct acc as [|a acc]; [now elim H|].
      rewrite <- app_assoc. cbn [List.app]. exact (IH2 (rev (a :: acc))).
    + rewrite (names_other _ _ _ E), squeezed_cons, E. cbn [andb].
      replace (rev acc ++ c :: r) with (rev (c :: acc) ++ r) by (cbn [rev]; now rewrite <- app_assoc).
      rewrite IH1; [cbn [rev]; now rewrite <- app_assoc|discriminate|].
      intros [X|X]; [subst c; discriminate E|exact (K X)].
  - intros x. destruct (c =? 47) eqn:E.
    + apply N.eqb_eq in E. subst c. rewrite names_slash. cbn [List.app].
      change (trail (47 :: 47 :: r)) with (trail (47 :: r)). rewrite IH2. now rewrite (squeezed_cons 47 (47 :: r)).
    + rewrite (names_other _ _ _ E). rewrite joined_cons.
      2:{ destruct (names_some [c] r) as (y & l & Y); [discriminate|]. rewrite Y. discriminate. }
      change (trail (47 :: c :: r)) with (trail (c :: r)). specialize (IH1 [c]). cbn [rev List.app] in IH1.
      rewrite IH1; [|discriminate|intros [X|[]]; subst c; discriminate E].
      rewrite squeezed_cons. cbn [is_absolute]. rewrite E. cbn [andb N.eqb Pos.eqb]. rewrite squeezed_cons, E. reflexivity.
Qed.

Definition rebuilt (e : bool * list bytes) : bytes := (if fst e then [47] else []) ++ joined (snd e).
Lemma elements_names p : elements p = (is_absolute p, match names [] p with [] => [] | _ => names [] p ++ trail p end).
Proof.
  unfold elements, trail. fold (names [] p). destruct (names [] p); [reflexivity|].
  destruct (last p 0 =? 47); [reflexivity|]. now rewrite app_nil_r.
Qed.
Lemma rebuild p : rebuilt (elements p) = squeezed p.
Proof.
  rewrite elements_names. unfold rebuilt. cbn [fst snd]. destruct p as [|c r]; [reflexivity|]. cbn [is_absolute].
  destruct (c =? 47) eqn:E.
  - apply N.eqb_eq in E. subst c. rewrite names_slash. cbn [List.app]. pose proof (proj2 (render r) []) as R. cbn [List.app] in R.
    rewrite <- R. destruct (names [] r) as [|y l] eqn:Y.
    + cbn [List.app] in *. unfold trail in *. destruct (last (47 :: r) 0 =? 47); [reflexivity|].
      cbn [joined] in R. clear -R. exfalso. revert R. induction r as [|d r IH]; [discriminate|].
      rewrite squeezed_cons. cbn [is_absolute]. destruct (d =? 47) eqn:E; cbn [andb N.eqb Pos.eqb]; [|discriminate].
      apply N.eqb_eq in E. subst d. exact IH.
    + rewrite joined_cons; [reflexivity|discriminate].
  - rewrite (names_other _ _ _ E). destruct (names_some [c] r) as (y & l & Y); [discriminate|]. rewrite Y, <- Y.
    pose proof (proj1 (render r) [c]) as R. cbn [rev List.app] in *. rewrite R; [|discriminate|intros [X|[]]; subst c; discriminate E].
    rewrite squeezed_cons, E. reflexivity.
Qed.

Lemma names_squeezed p : forall acc, names acc (squeezed p) = names acc p.
Proof.
  induction p as [|c r IH]; intros acc; [reflexivity|]. rewrite squeezed_cons.
  destruct (c =? 47) eqn:E; cbn [andb].
  - apply N.eqb_eq in E. subst c. destruct r as [|d r]; [reflexivity|]. cbn [is_absolute]. destruct (d =? 47) eqn:F.
    + apply N.eqb_eq in F. subst d. rewrite IH, !names_slash. cbn [List.app]. reflexivity.
    + now rewrite !names_slash, IH.
  - now rewrite !(names_other _ _ _ E), IH.
Qed.
Lemma absolute_squeezed p : is_absolute (squeezed p) = is_absolute p.
Proof.
  induction p as [|c r IH]; [reflexivity|]. rewrite squeezed_cons. destruct (c =? 47) eqn:E; cbn [andb]; [|reflexivity].
  destruct (is_absolute r) eqn:F; cbn [is_absolute]; [now rewrite IH|reflexivity].
Qed.
Lemma squeezed_nil p : squeezed p = [] -> p = [].
Proof.
  induction p as [|c r IH]; [reflexivity|]. rewrite squeezed_cons. destruct ((c =? 47) && is_absolute r) eqn:E; [|discriminate].
  intros H. rewrite (IH H) in E. now rewrite andb_false_r in E.
Qed.
Lemma last_squeezed p : last (squeezed p) 0 = last p 0.
Proof.
  induction p as [|c r IH]; [reflexivity|]. rewrite squeezed_cons. destruct r as [|d r].
  - cbn [is_absolute]. now rewrite andb_false_r.
  - etransitivity; [|exact IH]. destruct ((c =? 47) && is_absolute (d :: r)); [reflexivity|].
    destruct (squeezed (d :: r)) eqn:E; [apply squeezed_nil in E; discriminate E|reflexivity].
Qed.
Lemma elements_squeezed p : elements (squeezed p) = elements p.
Proof. rewrite !elements_names. unfold trail. now rewrite absolute_squeezed, names_squeezed, last_squeezed. Qed.

Lemma path_eqb_squeezed p q : path_eqb p q = true <-> squeezed p = squeezed q.
Proof.
  unfold path_eqb. split.
  - intros H. apply andb_prop in H as [A C]. apply Bool.eqb_prop in A.
    destruct (key_eqb_spec (snd (elements p)) (snd (elements q))) as [D|D]; [|discriminate C].
    rewrite <- (rebuild p), <- (rebuild q). f_equal. destruct (elements p), (elements q). cbn in *. congruence.
  - intros H. rewrite <- (elements_squeezed p), H, (elements_squeezed q). rewrite Bool.eqb_reflx. apply key_eqb_refl.
Qed.
Lemma path_eqb_other p q : squeezed p <> squeezed q -> path_eqb p q = false.
Proof. intros H. destruct (path_eqb p q) eqn:E; [|reflexivity]. apply path_eqb_squeezed in E. now elim H. Qed.

Lemma rename_here cwd tp broken o p fs out : destination tp o fs p = Ok out -> squeezed p = squeezed out ->
  rename_file cwd tp broken o p fs = ([], (Ok tt, fs)).
Proof.
  intros D E. unfold rename_file, fcatch, flift. rewrite D. apply path_eqb_squeezed in E.
  unfold fbind. cbn. rewrite E, andb_false_r. reflexivity.
Qed.

Lemma rename_missing cwd tp broken o entries p rest fs : resolve cwd p <> [] -> find_node (resolve cwd p) fs = None ->
  rename_args cwd tp broken o entries (p :: rest) fs = ([], (Throw InvalidArgument, fs)).
Proof.
  intros R H. cbn [rename_args]. unfold fbind, rename_arg. assert (D : is_dir fs (resolve cwd p) = false).
  { unfold is_dir. destruct (resolve cwd p); [congruence|]. now rewrite H. }
  rewrite D, H. reflexivity.
Qed.
Lemma rename_up_to cwd tp broken o entries : forall l p rest fs t s,
  rename_args cwd tp broken o entries l fs = (t, (Ok tt, s)) -> resolve cwd p <> [] -> find_node (resolve cwd p) s = None ->
  rename_args cwd tp broken o entries (l ++ p :: rest) fs = (t, (Throw InvalidArgument, s)).
Proof.
  induction l as [|a l IH]; intros p rest fs t s H R M.
  - cbn in H. injection H as <- <-. now apply rename_missing.
  - cbn [rename_args List.app] in *. unfold fbind in *. destruct (rename_arg cwd tp broken o entries a fs) as [t1 [[[]| | |] s1]]; try discriminate H.
    destruct (rename_args cwd tp broken o entries l s1) as [t2 [x s2]] eqn:E. injection H as <- -> ->.
    rewrite (IH p rest s1 t2 s E R M). reflexivity.
Qed.
