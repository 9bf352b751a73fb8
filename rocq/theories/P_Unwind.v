(** * C108: what the Scheme procedures acquire, and what they release, however they end. *)
From Verif Require Import Base M_Unwind S_Unwind L_Unwind.
#[local] Open Scope nat_scope.

Lemma exec_is n c e r tr m r' tr' m' : exec n c e r tr m -> r = r' -> tr = tr' -> m = m' -> exec n c e r' tr' m'.
Proof. now intros H -> -> ->. Qed.

Lemma procedures_covered c : In c procedures -> covered c = true.
Proof. intros H. repeat destruct H as [<-|H]; try reflexivity. destruct H. Qed.

(** Every string that one of the five procedures gets from the interpreter is freed once, after
    it is got, whether the procedure returns, throws or raises; and nothing else is freed. *)
Theorem C108_strings : forall c n e r tr m, In c procedures -> exec n c e r tr m ->
  r = [] /\ forall k, (In (Got k) tr -> once_after (Got k) (Freed k) tr) /\ (In (Freed k) tr -> In (Got k) tr).
Proof.
  intros c n e r tr m Hc H. pose proof (covered_none _ _ _ _ _ _ H (procedures_covered c Hc)) as E. split; [exact E|].
  intros k. destruct (exec_strings k _ _ _ _ _ _ H) as (A1 & A2 & A3). rewrite E in A2. cbn [count_occ] in A2. split.
  - intros G. apply times_in in G. apply once_after_of; [discriminate|lia|lia|exact A3].
  - intros G. apply times_in in G. apply times_in. lia.
Qed.

(** Already by the time one frame has been made, what it took is freed. *)
Theorem C108_frame : forall c n e r tr m, In c [ser_frame; ser] -> exec n c e r tr m ->
  r = [] /\ forall k, In (Got k) tr -> once_after (Got k) (Freed k) tr.
Proof.
  intros c n e r tr m Hc H.
  assert (C : covered c = true) by (repeat destruct Hc as [<-|Hc]; try reflexivity; destruct Hc).
  pose proof (covered_none _ _ _ _ _ _ H C) as E. split; [exact E|].
  intros k G. destruct (exec_strings k _ _ _ _ _ _ H) as (A1 & A2 & A3). rewrite E in A2. cbn [count_occ] in A2.
  apply times_in in G. apply once_after_of; [discriminate|lia|lia|exact A3].
Qed.

(** Of any code at all: a string is freed at most once and not before it is got; those not freed
    are what the context around the code is left to free, each once. *)
Theorem C108_context : forall c n e r tr m, exec n c e r tr m ->
  NoDup r /\
  (forall k, In k r <-> In (Got k) tr /\ ~ In (Freed k) tr) /\
  (forall k, In (Freed k) tr -> once_after (Got k) (Freed k) tr).
Proof.
  intros c n e r tr m H. split; [|split].
  - apply (NoDup_count_occ Nat.eq_dec). intros k. destruct (exec_strings k _ _ _ _ _ _ H) as (A1 & A2 & A3). lia.
  - intros k. destruct (exec_strings k _ _ _ _ _ _ H) as (A1 & A2 & A3).
    rewrite (count_occ_In Nat.eq_dec), times_in, times_not. lia.
  - intros k G. destruct (exec_strings k _ _ _ _ _ _ H) as (A1 & A2 & A3). apply times_in in G.
    apply once_after_of; [discriminate|lia|lia|exact A3].
Qed.

(** As long as no error is raised, by returning or by throwing, every object is destroyed once,
    after it is constructed; in any case none is destroyed that was not constructed before, nor
    twice. *)
Theorem C108_objects_partial : forall c n e r tr m o k, exec n c e r tr m ->
  (~ In Raising tr -> In (Opened o k) tr -> once_after (Opened o k) (Closed o k) tr) /\
  (In (Closed o k) tr -> once_after (Opened o k) (Closed o k) tr).
Proof.
  intros c n e r tr m o k H. destruct (exec_objects o k _ _ _ _ _ _ H) as (A1 & A2 & A3 & A4). split.
  - intros N1 G. apply times_in in G. specialize (A3 N1). apply once_after_of; [discriminate|lia|lia|exact A4].
  - intros G. apply times_in in G. apply once_after_of; [discriminate|lia|lia|exact A4].
Qed.

(** But what is open when an error is raised stays open, in each of the four procedures that
    catch none. *)
Theorem C108_raise_refuted : forall c n e r t1 t2 m o k,
  In c [read_id3v1; read_tagset; write_id3v1; write_tagset] ->
  exec n c e r (t1 ++ Raising :: t2) m ->
  In (Opened o k) t1 -> ~ In (Closed o k) t1 -> left_open o k (t1 ++ Raising :: t2).
Proof.
  intros c n e r t1 t2 m o k Hc H Ho Hn.
  assert (U : uncaught c = true) by (repeat destruct Hc as [<-|Hc]; try reflexivity; destruct Hc).
  destruct (exec_quiet _ _ _ _ _ _ H U) as (_ & Q). split; [apply in_app_iff; now left|].
  intros X. apply in_app_iff in X as [X|[X|X]]; [exact (Hn X)|discriminate X|]. exact (Q _ _ o k eq_refl X).
Qed.

(** Reading a file's tags, where they cannot be read: the error is raised, and the file is left
    open. *)
Lemma read_bad n : exec n read_tagset Raised [] [Got n; Opened File (S n); Opened Memory (S (S n)); Raising; Freed n] (S (S (S n))).
Proof.
  eapply exec_is.
  - apply x_try; [|discriminate]. apply x_ctx. eapply x_seq; [apply x_str|]. eapply x_seq; [apply x_cxx|].
    apply x_cut; [|discriminate]. apply x_local. apply x_local. apply x_cut; [|discriminate].
    eapply x_handle; [apply x_throw|apply x_fail].
  - reflexivity. - reflexivity. - reflexivity.
Qed.
Theorem C108_read_refuted : forall n, exists tr m, exec n read_tagset Raised [] tr m /\ left_open File (S n) tr.
Proof.
  intros n. do 2 eexists. split; [apply read_bad|]. split; [right; left; reflexivity|].
  intros [X|[X|[X|[X|[X|[]]]]]]; discriminate X.
Qed.

(** A walk over a directory catches the errors, and goes on: it may return in the end and leave
    as many files open as there are. *)
Lemma walk_bad : forall N n, exists ks tr m,
  exec n (Loop (Seq (Choice Skip (seqs [Guile; Caught (Seq read_tagset read_id3v1); Guile])) Cxx)) Returned [] tr m /\
  length ks = N /\ NoDup ks /\ (forall k, In k ks -> n <= k /\ In (Opened File k) tr) /\ forall o k, ~ In (Closed o k) tr.
Proof.
  induction N as [|N IH]; intros n.
  - exists [], [], n. split; [apply x_done|]. split; [reflexivity|]. split; [constructor|]. split; [intros k []|intros o k []].
  - destruct (IH (S (S (S n)))) as (ks & tr & m & H & L & D & P1 & P2).
    exists (S n :: ks), ([Got n; Opened File (S n); Opened Memory (S (S n)); Raising; Freed n] ++ tr), m. split; [|split; [|split; [|split]]].
    + assert (B : exec n (Caught (Seq read_tagset read_id3v1)) Returned []
        [Got n; Opened File (S n); Opened Memory (S (S n)); Raising; Freed n] (S (S (S n)))).
      { eapply exec_is; [eapply x_caught; apply x_cut; [apply read_bad|discriminate]|reflexivity|reflexivity|reflexivity]. }
      assert (E : exec n (seqs [Guile; Caught (Seq read_tagset read_id3v1); Guile]) Returned []
        [Got n; Opened File (S n); Opened Memory (S (S n)); Raising; Freed n] (S (S (S n)))).
      { eapply exec_is; [eapply x_seq; [apply x_guile|eapply x_seq; [exact B|eapply x_seq; [apply x_guile|apply x_skip]]]|reflexivity|reflexivity|reflexivity]. }
      eapply exec_is; [eapply x_round; [eapply x_seq; [apply x_right; exact E|apply x_cxx]|exact H]|reflexivity|reflexivity|reflexivity].
    + cbn [length]. now rewrite L.
    + constructor; [intros X; apply P1 in X; lia|exact D].
    + intros k [<-|X]; [split; [lia|right; left; reflexivity]|]. destruct (P1 k X) as (X1 & X2). split; [lia|]. apply in_app_iff. now right.
    + intros o k X. apply in_app_iff in X as [X|X]; [|exact (P2 o k X)]. destruct X as [X|[X|[X|[X|[X|[]]]]]]; discriminate X.
Qed.
Theorem C108_walk_refuted : forall N, exists ks tr m, exec 0 with_track_in Returned [] tr m /\
  length ks = N /\ NoDup ks /\ forall k, In k ks -> left_open File k tr.
Proof.
  intros N. destruct (walk_bad N 3) as (ks & tr & m & H & L & D & P1 & P2).
  exists ks, ((Got 0 :: Opened Memory 1 :: (Opened Directory 2 :: tr ++ [Closed Directory 2]) ++ [Closed Memory 1]) ++ [Freed 0]), m.
  split; [|split; [exact L|split; [exact D|]]].
  - apply x_try; [|discriminate]. eapply exec_is; [apply x_ctx; eapply x_seq; [apply x_str|]| | |].
    + eapply x_seq; [|apply x_skip]. apply x_local. eapply x_seq; [apply x_cxx|]. apply x_local. exact H.
    + reflexivity. + cbn. now rewrite app_nil_r. + reflexivity.
  - intros k X. destruct (P1 k X) as (_ & X2). split.
    + apply in_app_iff. left. right. right. apply in_app_iff. left. right. apply in_app_iff. now left.
    + intros Y. apply in_app_iff in Y as [Y|[Y|[]]]; [|discriminate Y]. destruct Y as [Y|[Y|Y]]; [discriminate Y..|].
      apply in_app_iff in Y as [Y|[Y|[]]]; [|discriminate Y]. destruct Y as [Y|Y]; [discriminate Y|].
      apply in_app_iff in Y as [Y|[Y|[]]]; [|discriminate Y]. exact (P2 _ _ Y).
Qed.

(** And the directory stays open where it is the procedure passed that raises. *)
Theorem C108_directory_refuted : exists tr m, exec 0 with_track_in Raised [] tr m /\ left_open Directory 2 tr.
Proof.
  exists [Got 0; Opened Memory 1; Opened Directory 2; Raising; Freed 0], 3. split.
  - eapply exec_is.
    + apply x_try; [|discriminate]. apply x_ctx. eapply x_seq; [apply x_str|]. apply x_cut; [|discriminate].
      apply x_local. eapply x_seq; [apply x_cxx|]. apply x_local. apply x_break; [|discriminate]. apply x_cut; [|discriminate].
      apply x_right. apply x_cut; [apply x_raise|discriminate].
    + reflexivity. + reflexivity. + reflexivity.
  - split; [right; right; left; reflexivity|]. intros [X|[X|[X|[X|[X|[]]]]]]; discriminate X.
Qed.

(** A file with no ID3v1 tag; and a tag that cannot be written for its genre, after six strings. *)
Example C108_nontrivial :
  exec 0 read_id3v1 Returned [] [Got 0; Opened File 1; Closed File 1; Freed 0] 2 /\
  exec 0 write_id3v1 Raised []
    [Got 0; Got 1; Got 2; Got 3; Got 4; Got 5; Got 6; Opened Memory 7; Raising;
     Freed 6; Freed 5; Freed 4; Freed 3; Freed 2; Freed 1; Freed 0] 8.
Proof.
  split.
  - eapply exec_is.
    + apply x_try; [|discriminate]. apply x_ctx. eapply x_seq; [apply x_str|]. eapply x_seq; [apply x_cxx|].
      eapply x_seq; [|apply x_skip]. apply x_local. eapply x_seq; [apply x_cxx|]. apply x_left. apply x_skip.
    + reflexivity. + reflexivity. + reflexivity.
  - eapply exec_is.
    + eapply x_seq; [apply x_left, x_skip|]. apply x_try; [|discriminate]. apply x_ctx.
      do 3 (eapply x_seq; [apply x_str|]). eapply x_seq; [apply x_left, x_skip|]. eapply x_seq; [apply x_str|]. eapply x_seq; [apply x_guile|].
      eapply x_seq; [apply x_left, x_skip|]. eapply x_seq; [apply x_str|]. eapply x_seq; [apply x_left, x_skip|].
      do 2 (eapply x_seq; [apply x_str|]). apply x_cut; [|discriminate]. apply x_local.
      eapply x_seq; [apply x_cxx|]. apply x_cut; [|discriminate]. apply x_right, x_fail.
    + reflexivity. + reflexivity. + reflexivity.
Qed.

Print Assumptions C108_strings.
Print Assumptions C108_frame.
Print Assumptions C108_context.
Print Assumptions C108_objects_partial.
Print Assumptions C108_raise_refuted.
Print Assumptions C108_read_refuted.
Print Assumptions C108_walk_refuted.
Print Assumptions C108_directory_refuted.
