(** * Lemmas: renaming files. *)
From Verif Require Import Base M_Fs M_Split M_Rename S_Rename L_Fs L_Tagset5.

Lemma lost_refl fs : nothing_lost fs fs.
Proof. exists (fun j => j). repeat split; auto. Qed.
Lemma changed_refl fs : nothing_changed fs fs.
Proof. intros j n H. exact H. Qed.

(** A new file does no harm. *)
Lemma lost_new fs s k b : find_node k s = None -> nothing_lost fs s -> nothing_lost fs (set_node k (File b) s).
Proof.
  intros HN (w & H1 & H2 & H3). exists w. split; [|split; [exact H2|]].
  - intros j c Hj. rewrite find_set_other; [now apply H1|]. intros E. apply H1 in Hj. congruence.
  - intros j Hj. rewrite find_set_other; [now apply H3|]. intros ->. apply H3 in Hj. congruence.
Qed.
Lemma changed_new fs s k b : find_node k s = None -> nothing_changed fs s -> nothing_changed fs (set_node k (File b) s).
Proof. intros HN H j n Hj. apply H in Hj. rewrite find_set_other; [exact Hj|]. intros ->. congruence. Qed.

(** Nor does the removal of one of which there is a fresh copy. *)
Lemma lost_move fs s k k' b : find_node k s = Some (File b) -> find_node k' s = None -> nothing_lost fs s ->
  nothing_lost fs (del_node k (set_node k' (File b) s)).
Proof.
  intros HK HN (w & H1 & H2 & H3).
  assert (NE : k <> k') by (intros ->; congruence).
  exists (fun j => if key_eqb (w j) k then k' else w j). split; [|split].
  - intros j c Hj. pose proof (H1 j c Hj) as E. destruct (key_eqb_spec (w j) k) as [EW|EW].
    + rewrite find_del_other by congruence. rewrite find_set_same. rewrite EW in E. congruence.
    + rewrite find_del_other by congruence. rewrite find_set_other; [exact E|]. intros EK. congruence.
  - intros i j c d Hi Hj. pose proof (H1 i c Hi) as Ei. pose proof (H1 j d Hj) as Ej.
    destruct (key_eqb_spec (w i) k) as [EI|EI], (key_eqb_spec (w j) k) as [EJ|EJ]; intros E.
    + apply (H2 i j c d Hi Hj). congruence.
    + rewrite <- E in Ej. congruence.
    + rewrite E in Ei. congruence.
    + now apply (H2 i j c d Hi Hj).
  - intros j Hj. apply H3 in Hj. rewrite find_del_other by congruence. rewrite find_set_other; [exact Hj|congruence].
Qed.

Section Rename.
  Context (cwd : bytes) (tp : fsys -> bytes -> outcome bytes) (broken : bytes -> option nat) (o : ropts).
  Notation rename_file := (rename_file cwd tp broken o).

  (** What holds of a copy of [from] to [to] holds of the run. *)
  Lemma copy_file_traced (Q : fsys -> Prop) from to fail s (post : outcome unit -> fsys -> Prop) :
    (forall b, find_node (resolve cwd to) s = None -> Q (set_node (resolve cwd to) (File b) s)) ->
    post (Throw FsError) s ->
    (forall b, find_node (resolve cwd from) s = Some (File b) -> find_node (resolve cwd to) s = None -> fail = None ->
       post (Ok tt) (set_node (resolve cwd to) (File b) s)) ->
    (forall b n, fail = Some n -> find_node (resolve cwd to) s = None -> post (Throw FsError) (set_node (resolve cwd to) (File b) s)) ->
    traced Q (copy_file cwd from to fail) post s.
  Proof.
    intros H1 H2 H3 H4. unfold traced, copy_file. cbv zeta.
    destruct (negb _ || _ || _); [split; [constructor|exact H2]|]. now apply traced_copy.
  Qed.

  (** A property kept by new files and, when asked to rename, by moves. *)
  Section Kept.
    Context (Q : fsys -> Prop)
      (Qnew : forall s k b, find_node k s = None -> Q s -> Q (set_node k (File b) s))
      (Qmove : ro_rename o = true -> forall s k k' b, find_node k s = Some (File b) -> find_node k' s = None -> Q s ->
         Q (del_node k (set_node k' (File b) s))).
    Let all (r : outcome unit) (s : fsys) : Prop := Q s.

    Lemma rename_file_kept p s : Q s -> traced Q (rename_file p) all s.
    Proof.
      intros HQ. unfold M_Rename.rename_file, traced.
      match goal with |- context [fcatch ?x ?h s] => enough (G : traced Q (fcatch x h) all s) by exact G end.
      apply traced_catch. apply traced_bind. apply traced_lift.
      destruct (destination tp o s p) as [out|x|u|]; [|destruct x; try (apply traced_throw; exact HQ); apply traced_ret; exact HQ|exact HQ|exact HQ].
      destruct (negb (ro_dry o) && negb (path_eqb p out)); [|apply traced_ret; exact HQ].
      apply traced_bind. apply copy_file_traced.
      - intros b HN. now apply Qnew.
      - apply traced_throw. exact HQ.
      - intros b HF HN _. destruct (ro_rename o) eqn:ER; [|apply traced_ret; now apply Qnew].
        assert (NE : resolve cwd p <> resolve cwd out) by (intros E; rewrite E in HF; congruence).
        apply traced_remove.
        + now apply Qmove.
        + now apply Qmove.
        + rewrite find_set_other by exact NE. congruence.
      - intros b n _ HN. apply traced_throw. now apply Qnew.
    Qed.

    Lemma rename_entries_kept l : forall s, Q s -> traced Q (rename_entries cwd tp broken o l) all s.
    Proof.
      induction l as [|p r IH]; intros s HQ; [apply traced_ret; exact HQ|]. cbn [rename_entries].
      unfold traced. match goal with |- context [fbind ?x ?f s] => enough (G : traced Q (fbind x f) all s) by exact G end.
      apply traced_bind.
      assert (G : traced Q (if is_regular cwd s p && ends_in_mp3 p then rename_file p else fret tt) all s).
      { destruct (_ && _); [now apply rename_file_kept|apply traced_ret; exact HQ]. }
      destruct G as [G1 G2]. split; [exact G1|]. destruct (fst (snd _)); try exact G2. now apply IH.
    Qed.
    Lemma rename_arg_kept entries p s : Q s -> traced Q (rename_arg cwd tp broken o entries p) all s.
    Proof.
      intros HQ. unfold traced, rename_arg. destruct (is_dir _ _); [now apply rename_entries_kept|].
      destruct (find_node _ s); [now apply rename_file_kept|]. split; [constructor|exact HQ].
    Qed.
    Lemma rename_args_kept entries l : forall s, Q s -> traced Q (rename_args cwd tp broken o entries l) all s.
    Proof.
      induction l as [|p r IH]; intros s HQ; [apply traced_ret; exact HQ|]. cbn [rename_args]. apply traced_bind.
      destruct (rename_arg_kept entries p s HQ) as [G1 G2]. split; [exact G1|].
      destruct (fst (snd _)); try exact G2. now apply IH.
    Qed.
  End Kept.

  Lemma traced_all {A} (Q : fsys -> Prop) (x : FS A) s : traced Q x (fun _ s' => Q s') s ->
    Forall Q (snd (snd (x s)) :: fst (x s)).
  Proof. intros [H1 H2]. now constructor. Qed.

  Lemma rename_lost entries l fs :
    Forall (nothing_lost fs) (snd (snd (rename_args cwd tp broken o entries l fs)) :: fst (rename_args cwd tp broken o entries l fs)).
  Proof.
    apply traced_all. apply rename_args_kept; [apply lost_new|intros _; apply lost_move|apply lost_refl].
  Qed.
  Lemma rename_copies entries l fs : ro_rename o = false ->
    Forall (nothing_changed fs) (snd (snd (rename_args cwd tp broken o entries l fs)) :: fst (rename_args cwd tp broken o entries l fs)).
  Proof.
    intros HR. apply traced_all. apply rename_args_kept; [apply changed_new|congruence|apply changed_refl].
  Qed.

  (** A dry run. *)
  Lemma rename_file_dry p s : ro_dry o = true -> fst (rename_file p s) = [] /\ snd (snd (rename_file p s)) = s.
  Proof.
    intros HD. unfold M_Rename.rename_file, fcatch. unfold fbind, flift. rewrite HD. cbn [negb andb].
    destruct (destination tp o s p) as [out|x|u|]; cbn; auto. destruct x; cbn; auto.
  Qed.
  Lemma rename_dry entries l : ro_dry o = true -> forall s,
    fst (rename_args cwd tp broken o entries l s) = [] /\ snd (snd (rename_args cwd tp broken o entries l s)) = s.
  Proof.
    intros HD.
    assert (Bind : forall A X (x : FS A) (f : A -> FS X) s, (fst (x s) = [] /\ snd (snd (x s)) = s) ->
      (forall a, fst (f a s) = [] /\ snd (snd (f a s)) = s) ->
      fst (fbind x f s) = [] /\ snd (snd (fbind x f s)) = s).
    { intros A X x f s [E1 E2] Hf. unfold fbind. destruct (x s) as [t [r s1]]. cbn in E1, E2. subst t s1.
      destruct r; cbn; auto. specialize (Hf a). destruct (f a s) as [t2 r2]. exact Hf. }
    assert (Ent : forall q s, fst (rename_entries cwd tp broken o q s) = [] /\ snd (snd (rename_entries cwd tp broken o q s)) = s).
    { induction q as [|p r IH]; intros s; [now cbn|]. cbn [rename_entries]. apply Bind; [|intros _; apply IH].
      destruct (_ && _); [now apply rename_file_dry|now cbn]. }
    induction l as [|p r IH]; intros s; [now cbn|]. cbn [rename_args]. apply Bind; [|intros _; apply IH].
    unfold rename_arg. destruct (is_dir _ _); [apply Ent|]. destruct (find_node _ s); [now apply rename_file_dry|now cbn].
  Qed.

  (** One file. *)
  Lemma rename_file_done p s b out : find_node (resolve cwd p) s = Some (File b) -> destination tp o s p = Ok out ->
    ro_dry o = false -> path_eqb p out = false -> fst (snd (rename_file p s)) = Ok tt ->
    let s' := snd (snd (rename_file p s)) in
    find_node (resolve cwd out) s = None /\
    find_node (resolve cwd out) s' = Some (File b) /\
    find_node (resolve cwd p) s' = (if ro_rename o then None else Some (File b)) /\
    forall j, j <> resolve cwd p -> j <> resolve cwd out -> find_node j s' = find_node j s.
  Proof.
    intros HF HD H1 H2.
    enough (G : forall r, rename_file p s = r -> fst (snd r) = Ok tt ->
      find_node (resolve cwd out) s = None /\
      find_node (resolve cwd out) (snd (snd r)) = Some (File b) /\
      find_node (resolve cwd p) (snd (snd r)) = (if ro_rename o then None else Some (File b)) /\
      forall j, j <> resolve cwd p -> j <> resolve cwd out -> find_node j (snd (snd r)) = find_node j s) by exact (G _ eq_refl).
    intros r E ER. revert E. unfold M_Rename.rename_file, fcatch. unfold fbind at 1. unfold flift. rewrite HD, H1, H2. cbn [negb andb].
    unfold fbind, copy_file. cbv zeta.
    destruct (negb _ || _ || _); [intros <-; discriminate ER|].
    unfold fcopy. rewrite HF. destruct (find_node (resolve cwd out) s) eqn:EO; [intros <-; discriminate ER|].
    destruct (broken p); [intros <-; discriminate ER|].
    assert (NE : resolve cwd p <> resolve cwd out) by (intros E; rewrite E in HF; congruence).
    destruct (ro_rename o).
    - unfold fremove. rewrite find_set_other by exact NE. rewrite HF. unfold change. cbv iota beta zeta. intros <-. cbn [fst snd].
      split; [reflexivity|].
      split; [rewrite find_del_other by congruence; apply find_set_same|]. split; [apply find_del_same|].
      intros j J1 J2. rewrite find_del_other by exact J1. now apply find_set_other.
    - unfold fret. cbv iota beta zeta. intros <-. cbn [fst snd].
      split; [reflexivity|]. split; [apply find_set_same|]. split; [now rewrite find_set_other|].
      intros j J1 J2. now apply find_set_other.
  Qed.

  (** A name that is taken. *)
  Lemma rename_file_taken p s out n : destination tp o s p = Ok out -> ro_dry o = false -> path_eqb p out = false ->
    find_node (resolve cwd out) s = Some n -> rename_file p s = ([], (Throw FsError, s)).
  Proof.
    intros HD H1 H2 HN. unfold M_Rename.rename_file, fcatch. unfold fbind, flift. rewrite HD, H1, H2. cbn [negb andb].
    unfold copy_file. cbv zeta. destruct (negb _ || _ || _); [reflexivity|]. unfold fcopy. rewrite HN.
    destruct (find_node (resolve cwd p) s) as [[]|]; reflexivity.
  Qed.
End Rename.
