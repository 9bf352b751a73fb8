(** * C81: whether a tag needs unsynchronisation. *)
From Verif Require Import Base M_Ints M_Unsync M_Payload M_Frame M_Tag22 M_Tag23 M_Tag24 M_Read M_Tagset
  S_Tag S_Tag23 S_Needs L_Sync P_Sync.

Lemma count_hides w : count_syncs w true <> 0 <-> hides_sync w.
Proof.
  split.
  - induction w as [|x r IH]; [intros H; now elim H|]. destruct r as [|y r]; [intros H; now elim H|].
    change (count_syncs (x :: y :: r) true) with ((if is_false_sync x y then 1 else 0) + count_syncs (y :: r) true).
    destruct (is_false_sync x y) eqn:E.
    + intros _. unfold is_false_sync in E. apply andb_prop in E as [E1 E2]. apply N.eqb_eq in E1. apply N.ltb_lt in E2.
      exists O, y. subst x. repeat split. clear -E2. lia.
    + intros H. destruct IH as (i & q & A & C & L); [exact H|]. exists (S i), q. auto.
  - intros (i & q & A & C & L) Z. apply count_apart in Z. rewrite apart_upto in Z. specialize (Z i q A C). clear -Z L. lia.
Qed.

Lemma refreshed wire c c' : counted wire c -> refresh wire false c = Ok c' ->
  exists w, wire (c_frame c) = Ok w /\ (c_syncs c' <> 0 <-> hides_sync w).
Proof.
  intros K H. unfold refresh in H. destruct (c_dirty c) eqn:D.
  - destruct (wire (c_frame c)) as [w|x|u|]; try discriminate H. apply Ok_inj in H. subst c'. exists w. split; [reflexivity|].
    cbn [c_syncs andb]. rewrite N.add_0_r. apply count_hides.
  - apply Ok_inj in H. subst c'. destruct (K D) as (w & W & ->). exists w. split; [exact W|]. apply count_hides.
Qed.

Lemma refreshed_last wire c c' : c_dirty c = true -> refresh wire true c = Ok c' ->
  exists w, wire (c_frame c) = Ok w /\ (c_syncs c' <> 0 <-> hides_sync w \/ last w 0 = 255).
Proof.
  intros D H. unfold refresh in H. rewrite D in H.
  destruct (wire (c_frame c)) as [w|x|u|]; try discriminate H. apply Ok_inj in H. subst c'. exists w. split; [reflexivity|].
  cbn [c_syncs andb]. rewrite <- count_hides. destruct (N.eqb_spec (last w 0) 255) as [E|E]; clear -E; lia.
Qed.

Lemma syncs_b c : negb (c_syncs c =? 0) = true <-> c_syncs c <> 0.
Proof. rewrite Bool.negb_true_iff. apply N.eqb_neq. Qed.

(** Some frame's bytes. *)
Notation some_frame P wire l := (exists c w, In c l /\ wire (c_frame c) = Ok w /\ P w).

Lemma any_need wire l b : Forall (counted wire) l -> frames_need wire false l = Ok b ->
  (b = true <-> some_frame hides_sync wire l).
Proof.
  revert b. induction l as [|c r IH]; intros b K H.
  - apply Ok_inj in H. subst b. split; [discriminate|intros (c & w & [] & _)].
  - inversion_clear K as [|? ? K1 K2].
    assert (X : exists c', refresh wire false c = Ok c' /\
      (if negb (c_syncs c' =? 0) then b = true else frames_need wire false r = Ok b)).
    { destruct r as [|c2 r].
      - cbn [frames_need] in H. destruct (refresh wire false c) as [c'|x|u|]; try discriminate H. apply Ok_inj in H.
        exists c'. split; [reflexivity|]. rewrite <- H. destruct (negb (c_syncs c' =? 0)); reflexivity.
      - change (frames_need wire false (c :: c2 :: r)) with
          (let* c' := refresh wire false c in if negb (c_syncs c' =? 0) then Ok true else frames_need wire false (c2 :: r)) in H.
        destruct (refresh wire false c) as [c'|x|u|]; try discriminate H. cbn [bind] in H. exists c'. split; [reflexivity|].
        destruct (negb (c_syncs c' =? 0)); [now apply Ok_inj in H|exact H]. }
    destruct X as (c' & R & X). destruct (refreshed _ _ _ K1 R) as (w & W & S1).
    destruct (negb (c_syncs c' =? 0)) eqn:E.
    + subst b. split; [|reflexivity]. intros _. exists c, w. split; [now left|]. split; [exact W|]. apply S1. now apply syncs_b.
    + rewrite (IH b K2 X). split.
      * intros (c1 & w1 & I1 & Q). exists c1, w1. split; [now right|exact Q].
      * intros (c1 & w1 & [<-|I1] & W1 & Q); [|exists c1, w1; auto]. rewrite W in W1. apply Ok_inj in W1. subst w1.
        apply S1 in Q. apply syncs_b in Q. congruence.
Qed.

Lemma any_need_last wire l b c0 : Forall (counted wire) l -> c_dirty c0 = true -> frames_need wire true (l ++ [c0]) = Ok b ->
  (b = true <-> some_frame hides_sync wire (l ++ [c0]) \/ exists w, wire (c_frame c0) = Ok w /\ last w 0 = 255).
Proof.
  intros K D. revert b K. induction l as [|c r IH]; intros b K H.
  - cbn [List.app frames_need] in H. destruct (refresh wire true c0) as [c'|x|u|] eqn:R; try discriminate H. apply Ok_inj in H.
    destruct (refreshed_last _ _ _ D R) as (w & W & S1). subst b. rewrite syncs_b, S1. split.
    + intros [Q|Q]; [left; exists c0, w; split; [now left|auto]|right; exists w; auto].
    + intros [(c1 & w1 & [<-|[]] & W1 & Q)|(w1 & W1 & Q)]; rewrite W in W1; apply Ok_inj in W1; subst w1; auto.
  - inversion_clear K as [|? ? K1 K2].
    assert (X : exists c', refresh wire false c = Ok c' /\
      (if negb (c_syncs c' =? 0) then b = true else frames_need wire true (r ++ [c0]) = Ok b)).
    { destruct (r ++ [c0]) as [|c2 r2] eqn:E2; [destruct r; discriminate E2|].
      change (frames_need wire true ((c :: r) ++ [c0])) with (frames_need wire true (c :: (r ++ [c0]))) in H. rewrite E2 in H.
      change (frames_need wire true (c :: c2 :: r2)) with
        (let* c' := refresh wire false c in if negb (c_syncs c' =? 0) then Ok true else frames_need wire true (c2 :: r2)) in H.
      destruct (refresh wire false c) as [c'|x|u|]; try discriminate H. cbn [bind] in H. exists c'. split; [reflexivity|].
      destruct (negb (c_syncs c' =? 0)); [now apply Ok_inj in H|exact H]. }
    destruct X as (c' & R & X). destruct (refreshed _ _ _ K1 R) as (w & W & S1).
    destruct (negb (c_syncs c' =? 0)) eqn:E.
    + subst b. split; [|reflexivity]. intros _. left. exists c, w. split; [now left|]. split; [exact W|]. apply S1. now apply syncs_b.
    + rewrite (IH b K2 X). split.
      * intros [(c1 & w1 & I1 & Q)|Q]; [left; exists c1, w1; split; [now right|exact Q]|now right].
      * intros [(c1 & w1 & [<-|I1] & W1 & Q)|Q]; [|left; exists c1, w1; auto|now right]. rewrite W in W1. apply Ok_inj in W1. subst w1.
        apply S1 in Q. apply syncs_b in Q. congruence.
Qed.

Lemma each_need wire l b : Forall (counted wire) l -> all_need wire l = Ok b ->
  (b = true <-> Forall (fun c => exists w, wire (c_frame c) = Ok w /\ hides_sync w) l).
Proof.
  revert b. induction l as [|c r IH]; intros b K H.
  - apply Ok_inj in H. subst b. split; [constructor|reflexivity].
  - inversion_clear K as [|? ? K1 K2]. cbn [all_need] in H.
    destruct (refresh wire false c) as [c'|x|u|] eqn:R; try discriminate H. cbn [bind] in H.
    destruct (refreshed _ _ _ K1 R) as (w & W & S1). destruct (c_syncs c' =? 0) eqn:E.
    + apply Ok_inj in H. subst b. split; [discriminate|]. intros F. exfalso. inversion_clear F as [|? ? (w1 & W1 & Q) _].
      rewrite W in W1. apply Ok_inj in W1. subst w1. apply S1 in Q. apply N.eqb_neq in Q. congruence.
    + rewrite (IH b K2 H). split; [intros F; constructor; [|exact F]|intros F; now inversion F].
      exists w. split; [exact W|]. apply S1. now apply N.eqb_neq.
Qed.

(** [needs_unsynchronisation()] of an ID3v2.2 tag: whether some frame hides a
    sync.  Missing: what e0 to e9 after an ff would need (C81_missed_refuted),
    and frames that have been written with a trailing ff counted. *)
Theorem C81_needs22_partial : forall t b, Forall (counted wire22) (t2_frames t) -> needs_unsync22 t = Ok b ->
  (b = true <-> exists c w, In c (t2_frames t) /\ wire22 (c_frame c) = Ok w /\ hides_sync w).
Proof. intros t b K H. exact (any_need wire22 _ b K H). Qed.
Print Assumptions C81_needs22_partial.

(** Of an ID3v2.3 tag without an extended header: likewise, and if there is no
    padding also whether the last frame ends in ff. *)
Theorem C81_needs23_partial : forall z t b, t3_ext t = None -> needs_unsync23 z t = Ok b ->
  (0 < t3_pad t -> Forall (counted (wire23 z)) (t3_frames t) ->
     (b = true <-> exists c w, In c (t3_frames t) /\ wire23 z (c_frame c) = Ok w /\ hides_sync w)) /\
  (forall l c0, t3_pad t = 0 -> t3_frames t = l ++ [c0] -> Forall (counted (wire23 z)) l -> c_dirty c0 = true ->
     (b = true <-> (exists c w, In c (t3_frames t) /\ wire23 z (c_frame c) = Ok w /\ hides_sync w) \/
                   exists w, wire23 z (c_frame c0) = Ok w /\ last w 0 = 255)).
Proof.
  intros z t b X H. unfold needs_unsync23, prep_ext in H. rewrite X in H. cbn [bind] in H. rewrite X in H. split.
  - intros P K. assert (E : (t3_pad t =? 0) = false) by (apply N.eqb_neq; clear -P; lia). rewrite E in H.
    exact (any_need (wire23 z) _ b K H).
  - intros l c0 P L K D. rewrite P, L in H. rewrite L. exact (any_need_last (wire23 z) l b c0 K D H).
Qed.
Print Assumptions C81_needs23_partial.

(** Of an ID3v2.4 tag: whether every frame does. *)
Theorem C81_needs24_partial : forall z t b, Forall (counted (wire24 z)) (t4_frames t) -> needs_unsync24 z t = Ok b ->
  (b = true <-> forall c, In c (t4_frames t) -> exists w, wire24 z (c_frame c) = Ok w /\ hides_sync w).
Proof. intros z t b K H. rewrite <- Forall_forall. exact (each_need (wire24 z) _ b K H). Qed.
Print Assumptions C81_needs24_partial.

Lemma frames_need_same wire p l : frames_need wire p l = (let* (b, _) := frames_need_c wire p l in Ok b).
Proof.
  induction l as [|c r IH]; [reflexivity|]. destruct r as [|c2 r].
  - cbn [frames_need frames_need_c]. destruct (refresh wire p c); reflexivity.
  - change (frames_need wire p (c :: c2 :: r)) with
      (let* c' := refresh wire false c in if negb (c_syncs c' =? 0) then Ok true else frames_need wire p (c2 :: r)).
    change (frames_need_c wire p (c :: c2 :: r)) with
      (let* c' := refresh wire false c in if negb (c_syncs c' =? 0) then Ok (true, c' :: c2 :: r)
         else let* (b, r') := frames_need_c wire p (c2 :: r) in Ok (b, c' :: r')).
    destruct (refresh wire false c) as [c'|x|u|]; try reflexivity. cbn [bind].
    destruct (negb (c_syncs c' =? 0)); [reflexivity|]. rewrite IH. destruct (frames_need_c wire p (c2 :: r)) as [(q, r')|x|u|]; reflexivity.
Qed.
Lemma all_need_same wire l : all_need wire l = (let* (b, _) := all_need_c wire l in Ok b).
Proof.
  induction l as [|c r IH]; [reflexivity|]. cbn [all_need all_need_c]. destruct (refresh wire false c) as [c'|x|u|]; try reflexivity. cbn [bind].
  destruct (c_syncs c' =? 0); [reflexivity|]. rewrite IH. destruct (all_need_c wire r) as [(q, r')|x|u|]; reflexivity.
Qed.

(** This is the question that saving "as needed" asks. *)
Theorem C81_asked : forall z t,
  (let* (b, _) := any_needs z t in Ok b) =
  match t with A22 t => needs_unsync22 t | A23 t => needs_unsync23 z t | A24 t => needs_unsync24 z t end.
Proof.
  intros z [t|t|t]; unfold any_needs, needs_unsync22, needs_unsync23, needs_unsync24.
  - rewrite frames_need_same. destruct (frames_need_c _ _ _) as [(q, r')|x|u|]; reflexivity.
  - destruct (prep_ext z t) as [t1|x|u|]; try reflexivity. cbn [bind].
    destruct (match t3_ext t1 with Some x => negb (x_syncs x =? 0) | None => false end); [reflexivity|].
    rewrite frames_need_same. destruct (frames_need_c _ _ _) as [(q, r')|x|u|]; reflexivity.
  - rewrite all_need_same. destruct (all_need_c _ _) as [(q, r')|x|u|]; reflexivity.
Qed.
Print Assumptions C81_asked.

Example C81_needs_nontrivial :
  let quiet := ex_c "XAAA" [1; 2; 3] in let loud := ex_c "XBBB" [5; 255; 251] in let ends := ex_c "XCCC" [5; 255] in
  Forall (counted (wire23 no_zlib)) [quiet; loud; ends] /\ c_dirty ends = true /\
  needs_unsync23 no_zlib (mkTag23 None false None 4 [quiet; ends]) = Ok false /\
  needs_unsync23 no_zlib (mkTag23 None false None 0 [quiet; ends]) = Ok true /\
  needs_unsync23 no_zlib (mkTag23 None false None 0 [quiet; loud; quiet]) = Ok true /\
  needs_unsync24 no_zlib (mkTag24 None false false None 0 [quiet; loud]) = Ok false /\
  needs_unsync24 no_zlib (mkTag24 None false false None 0 [loud; loud]) = Ok true.
Proof. split; [repeat constructor; discriminate|]. repeat split; vm_compute; reflexivity. Qed.
Example C81_needs22_nontrivial :
  let f := new_frame (mkFrame (B "XAA") no_flags (BUnknown [1; 255; 240])) in
  counted wire22 f /\ needs_unsync22 (mkTag22 None false 0 [f]) = Ok true.
Proof. split; [discriminate|vm_compute; reflexivity]. Qed.
