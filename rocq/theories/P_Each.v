(** * C109: taking frames out of a tag one at a time. *)
From Verif Require Import Base M_Charset M_Payload M_Frame M_TextId M_Lookup M_Move M_Each S_Lookup S_Move L_Lookup L_Each P_Move.
#[local] Open Scope N_scope.

(** Going from the front to the end, each frame for which [p] holds being erased and the iterator that
    [erase] answers used to go on: where this ends normally the frames left are the others,
    in their order. *)
Theorem C109_frames : forall v p st st', erase_each v p st = Ok st' -> frames_of st' = kept p (frames_of st).
Proof.
  intros v p st st' H. apply (each_frames v p (length (l_frames st)) [] (frames_of st) st st' H eq_refl).
  unfold frames_of. apply map_length.
Qed.

(** It does when one frame goes, or none. *)
Theorem C109_one_partial : forall v ic st p A f Z, typed_history v ic st -> frames_of st = A ++ f :: Z ->
  (forall x, In x A \/ In x Z -> p x = false) -> (p f = true -> ~ odd_text f) ->
  exists st', erase_each v p st = Ok st' /\ frames_of st' = kept p (frames_of st).
Proof.
  intros v ic st p A f Z H E PN O. destruct (typed_history_reg _ _ _ H) as (R & F).
  assert (LF : length (l_frames st) = (length A + S (length Z))%nat).
  { rewrite <- (map_length (fun x => c_frame (snd x))). fold (frames_of st). rewrite E, app_length. reflexivity. }
  assert (OK : exists st', erase_each v p st = Ok st').
  { unfold erase_each. rewrite LF, each_skip.
    2:{ intros m Lm. cbn [N.add]. assert (X : exists x, nthN (l_frames st) (N.of_nat m) = Some x) by (apply nthN_ex; lia).
        destruct X as (x & X). exists x. split; [exact X|]. apply PN. left.
        assert (Y : nthN (frames_of st) (N.of_nat m) = Some (c_frame (snd x))) by now rewrite frame_nth, X.
        rewrite E, nthN_app1 in Y by lia. exact (nthN_In _ _ _ Y). }
    rewrite N.add_0_l. cbn [each_from]. assert (XF : nthN (frames_of st) (N.of_nat (length A)) = Some f) by (rewrite E; apply nthN_app_at).
    rewrite frame_nth in XF. destruct (nthN (l_frames st) (N.of_nat (length A))) as [[a c]|] eqn:X; [|discriminate XF]. injection XF as XF. cbn [snd] in XF.
    assert (REST : forall st1 i, (forall m, (m < length Z)%nat -> exists x, nthN (l_frames st1) (i + N.of_nat m) = Some x /\ p (c_frame (snd x)) = false) ->
      each_from v p (length Z) i st1 = Ok st1).
    { intros st1 i Q. pose proof (each_skip v p (length Z) 0 i st1 Q) as Y. rewrite Nat.add_0_r in Y. exact Y. }
    rewrite XF. destruct (p f) eqn:PF.
    - assert (W : below v p (N.of_nat (length A) + 1) st).
      { destruct (below_all v p st R F) as (ND & Q).
        - intros g I PG. rewrite E in I. apply in_app_iff in I as [I|[<-|I]]; [rewrite PN in PG by auto; discriminate PG|exact (O eq_refl)|rewrite PN in PG by auto; discriminate PG].
        - split; [exact ND|]. intros k b d L. apply Q. lia. }
      rewrite <- XF in PF. destruct (below_erase v p _ st a c W X PF) as (st1 & E1 & _ & F1). rewrite E1. cbn [bind].
      exists st1. apply REST. intros m Lm. apply frames_remove in F1. fold (frames_of st) in F1. rewrite E, remove_mid in F1.
      assert (Y : exists g, nthN (frames_of st1) (N.of_nat (length A) + N.of_nat m) = Some g /\ In g Z).
      { rewrite F1. destruct (nth_error Z m) as [g|] eqn:G; [|apply nth_error_None in G; lia]. exists g. split; [|exact (nth_error_In _ _ G)].
        unfold nthN. rewrite nth_error_app2 by lia. rewrite <- G. f_equal. lia. }
      destruct Y as (g & Y & I). rewrite frame_nth in Y. destruct (nthN (l_frames st1) (N.of_nat (length A) + N.of_nat m)) as [x|]; [|discriminate Y].
      exists x. split; [reflexivity|]. injection Y as ->. apply PN. now right.
    - exists st. apply REST. intros m Lm.
      assert (Y : exists g, nthN (frames_of st) (N.of_nat (length A) + 1 + N.of_nat m) = Some g /\ In g Z).
      { rewrite E. destruct (nth_error Z m) as [g|] eqn:G; [|apply nth_error_None in G; lia]. exists g. split; [|exact (nth_error_In _ _ G)].
        unfold nthN. rewrite nth_error_app2 by lia. replace (N.to_nat (N.of_nat (length A) + 1 + N.of_nat m) - length A)%nat with (S m) by lia. exact G. }
      destruct Y as (g & Y & I). rewrite frame_nth in Y. destruct (nthN (l_frames st) (N.of_nat (length A) + 1 + N.of_nat m)) as [x|]; [|discriminate Y].
      exists x. split; [reflexivity|]. injection Y as ->. apply PN. now right. }
  destruct OK as (st' & OK). exists st'. split; [exact OK|now apply (C109_frames v)].
Qed.

(** But the iterator that [erase] answers is no good for erasing. *)
Theorem C109_again_refuted : forall v ic st i st1 st2, history v ic st -> erase v i st = Ok st1 -> erase v i st1 <> Ok st2.
Proof.
  intros v ic st i st1 st2 H E1 E2. destruct (after_one v st i i st1 st2 (history_reg _ _ _ H) E1 (N.le_refl _) E2) as (L & _). lia.
Qed.

(** Nor, after it, one further on, unless by chance the frames at the place it had before and at the one it
    has now have the same name. *)
Theorem C109_after_refuted : forall v ic st i j st1 st2 f g, history v ic st -> erase v i st = Ok st1 -> i < j ->
  nthN (frames_of st) j = Some f -> nthN (frames_of st) (j + 1) = Some g -> f_id f <> f_id g -> erase v j st1 <> Ok st2.
Proof.
  intros v ic st i j st1 st2 f g H E1 L F G NE E2.
  destruct (after_one v st i j st1 st2 (history_reg _ _ _ H) E1 ltac:(lia) E2) as (_ & f' & g' & F' & G' & I0).
  rewrite F in F'. rewrite G in G'. injection F' as <-. injection G' as <-. exact (NE I0).
Qed.

(** So the loop does not end normally once a second frame is to go, unless the frame before that one
    stays and has its name. *)
Theorem C109_two_refuted : forall v ic st p A f M g Z st', history v ic st -> frames_of st = A ++ f :: M ++ g :: Z ->
  (forall x, In x A \/ In x M -> p x = false) -> p f = true -> p g = true ->
  (forall M' h, M = M' ++ [h] -> f_id h <> f_id g) -> erase_each v p st <> Ok st'.
Proof.
  intros v ic st p A f M g Z st' H E PN PF PG NE Q.
  destruct (each_two v p st st' A f M g Z (history_reg _ _ _ H) E) as (M' & h & E1 & E2); auto. exact (NE M' h E1 E2).
Qed.

(** From the back it works, as long as no frame goes that is named like a text frame without being one. *)
Theorem C109_back_partial : forall v ic st p, typed_history v ic st ->
  (forall f, In f (frames_of st) -> p f = true -> ~ odd_text f) ->
  exists st', erase_back v p st = Ok st' /\ frames_of st' = kept p (frames_of st).
Proof.
  intros v ic st p H NO. destruct (typed_history_reg _ _ _ H) as (R & F). pose proof (below_all v p st R F NO) as W.
  assert (L : length (l_frames st) = length (frames_of st)) by (unfold frames_of; now rewrite map_length).
  unfold erase_back. rewrite L in *. destruct (before_done v p (frames_of st) [] st W (eq_sym (app_nil_r _))) as (st' & E1 & E2).
  exists st'. split; [exact E1|]. now rewrite app_nil_r in E2.
Qed.

(** Five frames; texts go.  From the front this ends badly, from the back well; one text alone can go. *)
Definition a_text (f : frame) : bool := match f_body f with BText _ => true | _ => false end.
Example C109_nontrivial :
  typed_history V23 ex_ic (of_frames ex_fs) /\
  erase_each V23 a_text (of_frames ex_fs) = UB BadIterator /\
  (exists st', erase_back V23 a_text (of_frames ex_fs) = Ok st' /\ frames_of st' = [ex_comm (B "first"); ex_comm (B "second")]) /\
  (exists st', erase_each V23 (named_as (B "TENC")) (of_frames ex_fs) = Ok st' /\
    frames_of st' = [ex_comm (B "first"); ex_text (B "TIT2") (B "a"); ex_comm (B "second"); ex_text (B "TPE1") (B "c")]).
Proof.
  split; [apply T_parsed; repeat constructor|]. split; [vm_compute; reflexivity|].
  split; (eexists; split; [vm_compute; reflexivity|vm_compute; reflexivity]).
Qed.

Print Assumptions C109_frames.
Print Assumptions C109_one_partial.
Print Assumptions C109_again_refuted.
Print Assumptions C109_after_refuted.
Print Assumptions C109_two_refuted.
Print Assumptions C109_back_partial.
