(** * Proofs: tag clouds in a file after the xtag command. *)
From Verif Require Import Base M_Ints M_Id3v1 M_Payload M_Cloud M_Frame M_Tag22 M_Tag23 M_Tag24 M_Charset M_TextId M_Lookup M_Read M_Fs M_Tagset M_Process M_Dirent M_Cmds M_Xtag M_Options
  S_Ints S_Read S_Id3v1 S_Payload S_Cloud S_Tag S_Tag22 S_Tag23 S_Tag24 S_Tagset S_Saved S_Process S_Lookup S_Cmds S_Xtag S_Effect S_EffectX
  L_Fs L_Payload L_Process L_Lookup L_Cmds L_Cmds2 L_Options L_Xtag L_Effect L_Effect2 L_Effect3.
#[local] Open Scope N_scope.

(** ** Sizes *)
Lemma total_app s t : total_values (s ++ t) = total_values s + total_values t.
Proof. unfold total_values. rewrite map_app, concat_app. apply len_app. Qed.
Lemma total_cons v s : total_values (v :: s) = len v + 1 + total_values s.
Proof. unfold total_values. cbn [map concat]. rewrite !len_app. reflexivity. Qed.
Lemma total_incl s : NoDup s -> forall t, incl s t -> total_values s <= total_values t.
Proof.
  induction 1 as [|v s N D IH]; intros t I; [unfold total_values; cbn; lia|].
  destruct (in_split v t (I v (or_introl eq_refl))) as (t1 & t2 & ->).
  assert (X : incl s (t1 ++ t2)).
  { intros x Hx. assert (Y : In x (t1 ++ v :: t2)) by (apply I; now right). apply in_app_or in Y as [Y|[->|Y]]; [apply in_or_app; now left|now elim N|apply in_or_app; now right]. }
  specialize (IH _ X). rewrite total_app in *. rewrite !total_cons. lia.
Qed.
Lemma lex_irrefl a : ~ lex_lt a a.
Proof. induction a as [|x a IH]; intros H; inversion H; subst; [lia|now apply IH]. Qed.
Lemma set_nodup s : is_set s -> NoDup s.
Proof. induction 1 as [|v s _ IH F]; constructor; [|exact IH]. intros I. rewrite Forall_forall in F. exact (lex_irrefl v (F v I)). Qed.

Lemma map_key m k s s' : is_map m -> In (k, s) m -> In (k, s') m -> s = s'.
Proof.
  intros [H _]. induction H as [|x m _ IH F]; intros A C; [destruct A|]. rewrite Forall_forall in F. destruct A as [->|A], C as [C|C].
  - congruence.
  - apply F in C. now elim (lex_irrefl _ C).
  - subst x. apply F in A. now elim (lex_irrefl _ A).
  - auto.
Qed.

(** ** Clouds *)
Lemma becomes_good v merge l c c' : wf_body v (BCloud c) -> plain_items l -> items_size l < 2 ^ 32 ->
  (forall k s, In (k, s) (tc_tags c) -> total_values s + items_size l < 2 ^ 32) -> cloud_becomes merge l c c' -> wf_body v (BCloud c').
Proof.
  intros (M & O & P & _) PI SZ RM (EO & M' & K & Q). cbn [wf_body]. split; [exact M'|]. split; [now rewrite EO|].
  unfold plain_map in *. rewrite Forall_forall in P. unfold plain_items in PI. rewrite Forall_forall in PI.
  assert (VI : forall k s, In (k, s) (tc_tags c') -> forall x, In x s -> (exists s0, In (k, s0) (tc_tags c) /\ In x s0) \/ In x (flat_map it_values l)).
  { intros k s I x Ix. assert (Y : paired (tc_tags c') k x) by (exists s; auto). apply Q in Y as [(_ & Y)|(i & Ii & _ & Iv)]; [now left|]. right. apply in_flat_map. eauto. }
  split; apply Forall_forall; intros [k s] I; cbn [fst snd].
  - split.
    + assert (Y : keyed (tc_tags c') k) by now exists s. apply K in Y as [(_ & s0 & Y)|Y]; [apply (P (k, s0) Y)|]. apply in_map_iff in Y as (i & <- & Ii). now apply PI.
    + apply Forall_forall. intros x Ix. destruct (VI k s I x Ix) as [(s0 & I0 & I1)|I0].
      * destruct (P (k, s0) I0) as [_ F]. cbn [snd] in F. rewrite Forall_forall in F. auto.
      * apply in_flat_map in I0 as (i & Ii & Iv). destruct (PI i Ii) as [_ F]. rewrite Forall_forall in F. auto.
  - assert (ND : NoDup s). { apply set_nodup. destruct M' as [_ F]. rewrite Forall_forall in F. exact (F (k, s) I). }
    destruct (in_dec (list_eq_dec N.eq_dec) k (map fst (tc_tags c))) as [Ik|Nk].
    + apply in_map_iff in Ik as ([k0 s0] & E & I0). cbn [fst] in E. subst k0. eapply N.le_lt_trans; [|exact (RM k s0 I0)].
      unfold items_size. rewrite <- total_app. apply total_incl; [exact ND|]. intros x Ix. apply in_or_app.
      destruct (VI k s I x Ix) as [(s1 & I1 & J)|J]; [|now right]. left. now rewrite (map_key _ _ _ _ M I0 I1).
    + eapply N.le_lt_trans; [|exact SZ]. unfold items_size. apply total_incl; [exact ND|]. intros x Ix.
      destruct (VI k s I x Ix) as [(s1 & I1 & _)|J]; [|exact J]. elim Nk. apply in_map_iff. now exists (k, s1).
Qed.

Lemma cloud_frame_good v f c : v = V23 \/ v = V24 -> f_id f = B "XTAG" -> f_body f = BCloud c -> f_flags f = no_flags -> wf_body v (BCloud c) -> good_frame v f.
Proof.
  intros V E EB FL W. split; [|exact FL]. unfold wf_frame. rewrite E, EB. split; [destruct V as [-> | ->]; reflexivity|]. split; [discriminate|].
  split; [destruct V as [-> | ->]; reflexivity|]. split; [exact W|]. cbn [write_body]. unfold write_cloud. intros X. apply Ok_inj in X. discriminate X.
Qed.
Lemma xtag_name v owner f c : v = V23 \/ v = V24 -> xtag_of v owner f c -> f_id f = B "XTAG".
Proof. intros [-> | ->] (E & _); exact E. Qed.
Lemma frame_good v owner merge l f f' : v = V23 \/ v = V24 -> good_frame v f -> plain_items l -> items_size l < 2 ^ 32 ->
  (forall c k s, xtag_of v owner f c -> In (k, s) (tc_tags c) -> total_values s + items_size l < 2 ^ 32) ->
  xtag_frame_set v owner merge l f f' -> good_frame v f'.
Proof.
  intros V G PI SZ RM (E1 & E2 & S1 & S2). destruct (takes v owner f) as [c|] eqn:T.
  - apply takes_iff in T. destruct (S1 c T) as (c' & EB & CB). destruct G as [W FL].
    apply (cloud_frame_good v f' c'); [exact V|rewrite E1; now apply (xtag_name v owner f c)|exact EB|unfold plain_flags in FL; now rewrite E2|].
    apply (becomes_good v merge l c c'); [|exact PI|exact SZ|intros k s; now apply RM|exact CB]. destruct W as (_ & _ & _ & W & _), T as (_ & EC & _). now rewrite EC in W.
  - rewrite S2; [exact G|]. now apply takes_none.
Qed.
Lemma tag_good owner merge create l t t' : any_version t <> V22 -> ~ In 0 owner -> plain_items l -> clouds_room owner l t ->
  Forall (good_frame (any_version t)) (shown t) -> clouds_put owner merge create l t t' -> Forall (good_frame (any_version t')) (shown t').
Proof.
  intros V22' O PI (SZ & RM) G (VE & fs & F & X). rewrite VE. pose proof (not_v22 _ V22') as V.
  assert (GF : Forall (good_frame (any_version t)) fs).
  { clear X. revert RM. induction F as [|f f' s fs H F IH]; intros RM; [constructor|]. apply Forall_cons_iff in G as [G1 G2]. constructor.
    - eapply frame_good; [exact V|exact G1|exact PI|exact SZ| |exact H]. intros c k x Xo. apply (RM f); [now left|exact Xo].
    - apply IH; [exact G2|]. intros g c k x Ig. apply (RM g). now right. }
  destruct X as [(_ & ->)|(_ & X)]; [exact GF|]. destruct create; [|now rewrite X]. destruct X as (f & -> & FL & c & Xo & CB).
  apply Forall_app. split; [exact GF|]. constructor; [|constructor].
  apply (cloud_frame_good _ f c V); [now apply (xtag_name (any_version t) [] f c)|apply Xo|exact FL|].
  refine (becomes_good _ false l (mkCloud owner []) c _ PI SZ _ CB).
  - cbn [wf_body tc_tags tc_owner]. split; [split; constructor|]. split; [exact O|]. split; constructor.
  - intros k s [].
Qed.

(** ** One after the other *)
Lemma becomes_twice keep l1 l2 c d e : cloud_becomes keep l1 c d -> cloud_becomes true l2 d e -> cloud_becomes keep (l1 ++ l2) c e.
Proof.
  intros (O1 & _ & K1 & Q1) (O2 & M2 & K2 & Q2). split; [congruence|]. split; [exact M2|]. split.
  - intros k. rewrite K2, K1, map_app, in_app_iff. intuition.
  - intros k v. rewrite Q2, Q1. split.
    + intros [(_ & [H|(i & I & H)])|(i & I & H)]; [now left|right; exists i; rewrite in_app_iff; auto|right; exists i; rewrite in_app_iff; auto].
    + intros [H|(i & I & H)]; [left; auto|]. apply in_app_or in I as [I|I]; [left; split; [reflexivity|right; eauto]|right; eauto].
Qed.
Lemma becomes_owner v owner f f' c c' keep l : xtag_of v owner f c -> f_id f' = f_id f -> f_body f' = BCloud c' -> cloud_becomes keep l c c' -> xtag_of v owner f' c'.
Proof. intros (E & _ & O) EI EB (EO & _). split; [now rewrite EI|]. split; [exact EB|]. now rewrite EO. Qed.
Lemma frame_twice v owner l1 l2 f g h : xtag_frame_set v owner true l1 f g -> xtag_frame_set v owner true l2 g h -> xtag_frame_set v owner true (l1 ++ l2) f h.
Proof.
  intros (A1 & A2 & A3 & A4) (C1 & C2 & C3 & C4). split; [congruence|]. split; [congruence|]. split.
  - intros c X. destruct (A3 c X) as (c1 & E1 & B1). destruct (C3 c1 (becomes_owner _ _ _ _ _ _ _ _ X A1 E1 B1)) as (c2 & E2 & B2). exists c2. split; [exact E2|].
    now apply (becomes_twice true l1 l2 c c1 c2).
  - intros NX. specialize (A4 NX). subst g. now apply C4.
Qed.
Lemma frames_twice v owner l1 l2 fs gs hs : Forall2 (xtag_frame_set v owner true l1) fs gs -> Forall2 (xtag_frame_set v owner true l2) gs hs ->
  Forall2 (xtag_frame_set v owner true (l1 ++ l2)) fs hs.
Proof. intros F. revert hs. induction F as [|f g fs gs X F IH]; intros hs G; inversion G; subst; constructor; [eapply frame_twice; eassumption|auto]. Qed.
Lemma any_left v owner l fs gs : Forall2 (xtag_frame_set v owner true l) fs gs -> (exists f c, In f gs /\ xtag_of v owner f c) <-> (exists f c, In f fs /\ xtag_of v owner f c).
Proof.
  induction 1 as [|f g fs gs (A1 & A2 & A3 & A4) F IH]; [split; intros (f & c & [] & _)|]. split; intros (x & c & [<-|I] & X).
  - destruct (takes v owner f) as [c0|] eqn:T; [apply takes_iff in T; exists f, c0; split; [now left|exact T]|].
    rewrite (A4 (takes_none _ _ _ T)) in X. exists f, c. split; [now left|exact X].
  - destruct IH as [IH _]. destruct IH as (y & d & J & Y); [eauto|]. exists y, d. split; [now right|exact Y].
  - destruct (A3 c X) as (c1 & E1 & B1). exists g, c1. split; [now left|]. exact (becomes_owner _ _ _ _ _ _ _ _ X A1 E1 B1).
  - destruct IH as [_ IH]. destruct IH as (y & d & J & Y); [eauto|]. exists y, d. split; [now right|exact Y].
Qed.
Lemma put_twice owner create l1 l2 t u s : clouds_put owner true create l1 t u -> clouds_put owner true create l2 u s -> clouds_put owner true create (l1 ++ l2) t s.
Proof.
  intros (V1 & fs & F1 & X1) (V2 & gs & F2 & X2). rewrite V1 in *. split; [exact V2|].
  assert (AF := any_left _ _ _ _ _ F1).
  destruct X1 as [(E1 & S1)|(N1 & S1)].
  - rewrite S1 in *. exists gs. split; [now apply (frames_twice _ _ l1 l2 _ fs)|]. destruct X2 as [(E2 & S2)|(N2 & _)]; [left; auto|].
    apply AF in E1 as (f & c & I & X). elim (N2 f c I X).
  - assert (NF : forall f c, In f fs -> ~ xtag_of (any_version t) owner f c).
    { intros f c I X. destruct AF as [AF _]. destruct AF as (g & d & J & Y); [eauto|]. exact (N1 g d J Y). }
    destruct create.
    + destruct S1 as (f & S1 & FL & c & Xo & CB). rewrite S1 in *. apply Forall2_app_inv_l in F2 as (gs1 & gs2 & G1 & G2 & ->).
      inversion G2 as [|? g ? r G3 G4]; subst. inversion G4; subst. clear G2 G4.
      assert (Xf : xtag_of (any_version t) owner f c).
      { destruct Xo as (P1 & P2 & _), CB as (P3 & _). split; [exact P1|]. split; [exact P2|]. right. exact P3. }
      destruct X2 as [(_ & S2)|(N2 & _)]; [|elim (N2 f c); [apply in_or_app; right; now left|exact Xf]].
      exists gs1. split; [now apply (frames_twice _ _ l1 l2 _ fs)|]. right. split; [exact N1|]. exists g. split; [exact S2|].
      destruct G3 as (Q1 & Q2 & Q3 & _). destruct (Q3 c Xf) as (c' & EB & CB'). split; [congruence|]. exists c'. split.
      * destruct Xo as (P1 & _ & _). split; [congruence|]. split; [exact EB|now left].
      * now apply (becomes_twice false l1 l2 _ c).
    + rewrite S1 in *. exists gs. split; [now apply (frames_twice _ _ l1 l2 _ fs)|]. destruct X2 as [((f & c & I & X) & _)|(_ & S2)]; [elim (NF f c I X)|]. right. auto.
Qed.

(** ** A run *)
Lemma tags_keep2 {S} (P : processor S) (Q : anytag -> Prop) : (forall s t u t' s', Q t -> process_v2 P s t = Ok (u, t', s') -> Q t') -> forall v2 i tags s v2' d s', Forall Q v2 ->
  process_tags P i tags v2 s = Ok (v2', d, s') -> Forall Q v2'.
Proof.
  intros HQ. induction v2 as [|t r IH]; intros i tags s v2' d s' F H; cbn [process_tags] in H; [apply Ok_inj in H; injection H as <- _ _; constructor|].
  destruct tags as [|x rest]; [discriminate H|]. apply Forall_cons_iff in F as [F1 F2]. destruct (x =? i).
  - apply bind_ok in H as ([[u t'] s1] & H1 & H). apply bind_ok in H as ([[r' d'] s2] & H2 & H). apply Ok_inj in H. injection H as <- _ _. constructor; eauto.
  - apply bind_ok in H as ([[r' d'] s2] & H2 & H). apply Ok_inj in H. injection H as <- _ _. constructor; eauto.
Qed.
Lemma tagset_keep2 {S} (P : processor S) (Q : anytag -> Prop) p v2 v1 s d v2' v1' s' : (forall s t u t' s', Q t -> process_v2 P s t = Ok (u, t', s') -> Q t') -> Forall Q v2 -> v2 <> [] ->
  process_tagset P p v2 v1 s = Ok (d, v2', v1', s') -> Forall Q v2'.
Proof.
  intros HQ F NE H. unfold process_tagset in H. destruct v2 as [|t r]; [congruence|]. set (v := t :: r) in *.
  apply bind_ok in H as ([[[x q] d1] s1] & H1 & H). assert (X : Forall Q x /\ q = None).
  { destruct (p_v2_scope p);
      (apply Ok_inj in H1; injection H1 as <- <- _ _; auto) ||
      (apply bind_ok in H1 as ([[y d2] s2] & H1 & E); apply Ok_inj in E; injection E as -> <- _ _; split; [eapply tags_keep2; eassumption|reflexivity]). }
  destruct X as [X ->]. apply bind_ok in H as ([[z1 d3] s3] & H2 & H). apply Ok_inj in H. injection H as _ <- _ _. now rewrite app_nil_r.
Qed.
Definition dirty_tag (t : anytag) : Prop := Forall (fun c => c_dirty c = true) (any_frames t).
Lemma xtag_frames_dirty v o cs : forall n out cs' n' out', Forall (fun c => c_dirty c = true) cs -> xtag_frames v o cs n out = Ok (cs', n', out') -> Forall (fun c => c_dirty c = true) cs'.
Proof.
  induction cs as [|c cs IH]; intros n out cs' n' out' F H; cbn [xtag_frames] in H; [apply Ok_inj in H; injection H as <- _ _; constructor|].
  apply Forall_cons_iff in F as [F1 F2]. apply bind_ok in H as ([[c1 k] o1] & H1 & H). apply bind_ok in H as ([[r n1] o2] & H2 & H). apply Ok_inj in H. injection H as <- _ _.
  constructor; [|eapply IH; eassumption]. unfold xtag_frame in H1. destruct (bytes_eqb _ _); [|apply Ok_inj in H1; injection H1 as <- _ _; exact F1].
  destruct (f_body (c_frame c)); try discriminate H1. destruct (_ && _); [apply Ok_inj in H1; injection H1 as <- _ _; exact F1|].
  destruct (x_get o); [apply Ok_inj in H1; injection H1 as <- _ _; exact F1|]. destruct (x_dry o); [apply Ok_inj in H1; injection H1 as <- _ _; exact F1|].
  destruct (cloud_apply _ _) as [[| | |] t']; try discriminate H1. apply Ok_inj in H1. injection H1 as <- _ _. exact F1.
Qed.
Lemma xtag_dirty w o s t u t' s' : dirty_tag t -> process_v2 (xtag_processor w o) s t = Ok (u, t', s') -> dirty_tag t'.
Proof.
  unfold dirty_tag. intros D H. cbn [xtag_processor process_v2] in H. apply bind_ok in H as ([[u1 cs] o1] & H & E). apply Ok_inj in E. injection E as _ <- _.
  destruct (set_frames_version cs t) as [_ ->]. unfold xtag_tag in H. apply bind_ok in H as ([[cs1 n] o2] & H1 & H). apply xtag_frames_dirty in H1; [|exact D].
  destruct (_ && _); [|apply Ok_inj in H; injection H as _ <- _; exact H1]. destruct (x_dry o); [apply Ok_inj in H; injection H as _ <- _; exact H1|].
  apply bind_ok in H as (c & Hc & H). apply Ok_inj in H. injection H as _ <- _. apply Forall_app. split; [exact H1|]. constructor; [|constructor].
  unfold make_xtag in Hc. apply bind_ok in Hc as (t0 & _ & Hc). apply Ok_inj in Hc. now subst c.
Qed.

Lemma same_frames v owner merge l fs gs : (forall f c, In f fs -> ~ xtag_of v owner f c) -> Forall2 (xtag_frame_set v owner merge l) fs gs -> gs = fs.
Proof.
  intros N F. induction F as [|f g fs gs (_ & _ & _ & X) _ IH]; [reflexivity|]. rewrite (X (fun c => N f c (or_introl eq_refl))), IH; [reflexivity|].
  intros f0 c I. apply N. now right.
Qed.
Lemma xtag_once z passes e entries w vm o p path d nm fs st fs' a v2 v1 l : let k := resolve (e_cwd e) path in
  crc_range z -> (0 < passes)%nat -> file_at e path d nm -> 355 <= len a ->
  xtag_options vm = Handled (Ok (o, p)) -> xv_get vm = false -> xv_dry vm = false -> xv_adjust vm = false -> xv_args vm = [path] ->
  xv_xtags vm = Some (items_text l) -> l <> [] -> Forall item_ok l -> fresh_bare [] [] l ->
  in_order z passes k a fs v2 v1 -> scope_fits p v2 ->
  (forall i t t', In (i, t) (with_index v2) -> in_scope p i = true -> clouds_put (own vm) (xv_merge vm) (xv_frame vm) l t t' -> Forall (good_frame (any_version t')) (shown t')) ->
  (forall data l d1 ts u1 s1, find_node k fs = Some (File data) -> tags_from data 0 l ->
     process_tagset (xtag_processor w o) p v2 v1 [] = Ok (d1, ts, u1, s1) -> can_be_written z p (tags_end 0 l) ts) ->
  run_xtag z passes e entries w vm fs = (st, (Ok 0, fs')) -> moderate k fs' ->
  exists v2' v1', in_order z passes k a fs' v2' v1' /\ Forall2 (clouds_read p (own vm) (xv_merge vm) (xv_frame vm) l) (with_index v2) v2' /\ same_v1 v1 v1'.
Proof.
  intros k Hz Hp FA LA EO VG VD VA VR VX NL IK FB (data & hl & Hk & HR & NE & HA & HV & HS & V22') SF GD CW HRUN HM.
  unfold run_xtag in HRUN. rewrite EO in HRUN. cbn [hbind] in HRUN. unfold proceed in HRUN. apply conclude_zero in HRUN as (u & HRUN). rewrite VR in HRUN.
  apply (over_one z passes e entries _ [] p path fs data) in HRUN as (st0 & s' & HF); [|exact (file_key e path d nm FA)|exact Hk].
  assert (EA : xtag_args (Some (items_text l)) (own vm) false (xv_frame vm) (xv_merge vm) false (xv_create vm) (xv_always vm) (xv_adjust vm) (xv_backups vm) (given (xv_tag vm)) = Ok (o, p)).
  { unfold xtag_options in EO. rewrite VR in EO. cbn [required hbind] in EO. rewrite VG, VD, VX in EO. fold (own vm) in EO.
    destruct (xtag_args _ _ _ _ _ _ _ _ _ _ _) as [x|[]|x|]; cbn in EO; try discriminate EO; now injection EO as ->. }
  destruct (args_set _ _ _ _ _ _ _ _ _ _ _ _ _ EA) as (_ & _ & _ & _ & _ & AS & _). destruct (AS eq_refl) as (s0 & _ & _ & _ & _ & _ & PD & PA & _). clear AS. rewrite VA in PA.
  destruct (set_tagset w z passes data v2 v1 l _ _ _ _ _ _ _ _ o p [] HR NE SF NL IK FB EA) as (xs & HT & TS).
  assert (TS' : Forall2 (fun it t' => same_rest (snd it) t' /\ clouds_read p (own vm) (xv_merge vm) (xv_frame vm) l it t') (with_index v2) (map fst xs)).
  { clear - TS. induction TS as [|[i t] [t' c] r r' H _ IH]; [constructor|]. cbn [map fst]. constructor; [|exact IH]. unfold clouds_read. cbn [fst snd] in *.
    destruct (in_scope p i).
    - destruct H as (H1 & gs & H2 & H3). split; [exact H1|]. split; [unfold same_rest in H1; destruct t, t'; cbn in H1; congruence || reflexivity|].
      exists gs. split; [exact H2|]. destruct H3 as [(H3 & H4 & _)|(H3 & H4)]; [left; auto|right; split; [exact H3|]].
      destruct (xv_frame vm); [destruct H4 as (f & H4 & H5 & _); eauto|apply H4].
    - injection H as -> _. split; [reflexivity|]. auto. }
  destruct (existsb snd xs) eqn:DT.
  2: { assert (E1 : Forall2 (clouds_read p (own vm) (xv_merge vm) (xv_frame vm) l) (with_index v2) v2).
       { rewrite <- (with_index_all v2) at 2. clear - TS DT. induction TS as [|[i t] [t' c] r r' H _ IH]; [constructor|]. cbn [existsb snd] in DT. apply orb_false_iff in DT as [-> DT].
         cbn [map snd]. constructor; [|now apply IH]. unfold clouds_read. cbn [fst snd] in *. destruct (in_scope p i); [|auto]. destruct H as (_ & gs & H2 & H3).
         destruct H3 as [(_ & _ & X)|(H3 & H4)]; [discriminate X|]. split; [reflexivity|]. pose proof (same_frames _ _ _ _ _ _ H3 H2) as G. subst gs. exists (shown t). split; [exact H2|]. right. split; [exact H3|].
         destruct (xv_frame vm); [destruct H4 as (? & _ & _ & X); discriminate X|reflexivity]. }
       assert (E3 : fs' = fs).
       { unfold process_file in HF. fold k in HF. rewrite Hk in HF. apply fbind_ok in HF as ([b2 b1] & st1 & fs1 & st2 & E0 & HF).
         unfold flift in E0. rewrite HR in E0. injection E0 as _ <- <- <-.
         apply fbind_ok in HF as ([[[d1 c2] c1] s1] & st3 & fs3 & st4 & E0 & HF); unfold flift in E0; injection E0 as _ E0 <-.
         pose proof (eq_trans (eq_sym E0) HT) as E4; apply Ok_inj in E4; injection E4 as -> -> -> ->.
         apply fbind_ok in HF as (u1 & st5 & fs5 & st6 & HW & HF). unfold fret in HF. injection HF as _ _ HF. subst fs5.
         unfold write_tagset in HW. cbn [andb] in HW. unfold fret in HW. congruence. }
       subst fs'. exists v2, v1. split; [|split; [exact E1|apply same_v1_refl]]. exists data, hl. repeat (split; [assumption|]). assumption. }
  assert (FR : Forall dirty_tag v2).
  { eapply Forall_impl; [|exact (tagset_fresh z passes data v2 v1 HR)]. apply fresh_dirty. }
  pose proof (tagset_keep2 (xtag_processor w o) dirty_tag p v2 v1 [] true (map fst xs) v1 [] (xtag_dirty w o) FR NE HT) as DD.
  assert (IO : Forall (fun it => (S_Saved.storable z Never (snd it) /\ any_version (snd it) <> V22) /\
     forall t', in_scope p (fst it) = true -> clouds_put (own vm) (xv_merge vm) (xv_frame vm) l (snd it) t' -> Forall (good_frame (any_version t')) (shown t')) (with_index v2)).
  { apply Forall_forall. intros [i t] M. cbn [fst snd]. split; [|intros t'; now apply (GD i t t')]. unfold with_index in M. apply in_combine_r in M. rewrite Forall_forall in HS, V22'. auto. }
  assert (S' : Forall (S_Saved.storable z Never) (map fst xs) /\ Forall (fun t => any_version t <> V22) (map fst xs)).
  { clear - TS' DD IO. induction TS' as [|[i t] t' r r' (SR & TP) _ IH]; [split; constructor|]. cbn [fst snd] in *.
    apply Forall_cons_iff in DD as [D1 D2]. apply Forall_cons_iff in IO as [((S1 & V1) & G1) S2]. cbn [fst snd] in S1, V1, G1. destruct (IH D2 S2) as [I1 I2].
    assert (VE : any_version t' = any_version t) by (unfold same_rest in SR; destruct t, t'; cbn in SR; congruence || reflexivity).
    split; [|constructor; [now rewrite VE|exact I2]]. constructor; [|exact I1].
    apply storable_made; [| |exact D1].
    - pose proof (storable_rest z t S1 V1) as R. unfold same_rest in SR. apply (set_frames_rest []) in R. rewrite <- SR in R. clear - R. destruct t'; exact R.
    - unfold clouds_read in TP. cbn [fst snd] in TP. destruct (in_scope p i); [now apply G1|]. destruct TP as [_ ->]. rewrite VE. now apply (storable_frames z). }
  destruct S' as [S' V'].
  assert (NE' : map fst xs <> []).
  { intros E0. rewrite E0 in TS'. inversion TS' as [E3|]. apply NE. rewrite <- (with_index_all v2), <- E3. reflexivity. }
  destruct (command_order z passes e (xtag_processor w o) p path d nm fs data hl a v2 v1 [] (map fst xs) v1 [] st0 s' fs' Hz Hp FA Hk HR HA LA PD PA HT NE' S' V' HV
    (CW data hl _ _ _ _ Hk (proj1 HA) HT) HF HM) as (v2'' & v1'' & X1 & X3 & X6).
  exists v2'', v1''. split; [exact X1|]. split; [|exact X6].
  clear - TS' X3. revert v2'' X3. induction TS' as [|it t' r r' (SR & TP) _ IH]; intros ? X3; inversion X3; subst; constructor; auto.
  unfold clouds_read, clouds_put in *. destruct (same_shown t' y) as [-> ->]; [assumption|]. exact TP.
Qed.

(** ** The command *)
Lemma xtag_command_once z passes e entries w vm o p path d nm fs st fs' a v2 v1 l : let k := resolve (e_cwd e) path in
  crc_range z -> (0 < passes)%nat -> file_at e path d nm -> 355 <= len a ->
  xtag_options vm = Handled (Ok (o, p)) -> xv_get vm = false -> xv_dry vm = false -> xv_adjust vm = false -> xv_args vm = [path] ->
  xv_xtags vm = Some (items_text l) -> l <> [] -> Forall item_ok l -> fresh_bare [] [] l -> plain_items l -> ~ In 0 (own vm) ->
  in_order z passes k a fs v2 v1 -> scope_fits p v2 -> (forall i t, In (i, t) (with_index v2) -> in_scope p i = true -> clouds_room (own vm) l t) ->
  (forall data l d1 ts u1 s1, find_node k fs = Some (File data) -> tags_from data 0 l ->
     process_tagset (xtag_processor w o) p v2 v1 [] = Ok (d1, ts, u1, s1) -> can_be_written z p (tags_end 0 l) ts) ->
  run_xtag z passes e entries w vm fs = (st, (Ok 0, fs')) -> moderate k fs' ->
  exists v2' v1', in_order z passes k a fs' v2' v1' /\ Forall2 (clouds_read p (own vm) (xv_merge vm) (xv_frame vm) l) (with_index v2) v2' /\ same_v1 v1 v1'.
Proof.
  intros k Hz Hp FA LA EO VG VD VA VR VX NL IK FB PI OW IO SF RM. apply (xtag_once z passes e entries w vm o p path d nm fs st fs' a v2 v1 l); try assumption.
  intros i t t' M IS CP. destruct IO as (data & hl & _ & _ & _ & _ & _ & HS & V22'). pose proof M as M'. unfold with_index in M'. apply in_combine_r in M'. rewrite Forall_forall in HS, V22'.
  refine (tag_good _ _ _ l t t' (V22' t M') OW PI (RM i t M IS) _ CP). apply (storable_frames z); auto.
Qed.

(** ** Histories *)
Lemma size_app l m : items_size (l ++ m) = items_size l + items_size m.
Proof. unfold items_size. rewrite flat_map_app. apply total_app. Qed.
Lemma room_less owner l m t : clouds_room owner (l ++ m) t -> clouds_room owner l t.
Proof.
  unfold clouds_room. rewrite size_app. intros [A C]. split; [lia|]. intros f c k s I X J. specialize (C f c k s I X J). lia.
Qed.
Lemma xtag_history z passes e entries w vm path d nm a v2 v1 : let k := resolve (e_cwd e) path in
  crc_range z -> (0 < passes)%nat -> file_at e path d nm -> 355 <= len a ->
  xv_get vm = false -> xv_dry vm = false -> xv_adjust vm = false -> xv_args vm = [path] -> xv_merge vm = true -> xv_backups vm = true -> given (xv_tag vm) = [] -> ~ In 0 (own vm) ->
  Forall (fun t => any_version t <> V22) v2 -> Forall (fun t => Forall (good_frame (any_version t)) (shown t)) v2 ->
  forall ls before fs fs' u2 u1, Forall (fun l => l <> [] /\ Forall item_ok l /\ fresh_bare [] [] l /\ plain_items l) ls -> plain_items before ->
  Forall (clouds_room (own vm) (before ++ concat ls)) v2 ->
  in_order z passes k a fs u2 u1 -> Forall2 (clouds_put (own vm) true (xv_frame vm) before) v2 u2 -> same_v1 v1 u1 ->
  one_by_one (map (fun l => run_xtag z passes e entries w (to_put vm l)) ls) (moderate k) fs fs' ->
  exists v2' v1', in_order z passes k a fs' v2' v1' /\ Forall2 (clouds_put (own vm) true (xv_frame vm) (before ++ concat ls)) v2 v2' /\ same_v1 v1 v1'.
Proof.
  intros k Hz Hp FA LA VG VD VA VR VM VB VT OW V22' GF. induction ls as [|l ls IH]; intros before fs fs' u2 u1 FL PB RM IO CP SV H.
  - cbn [map one_by_one concat] in *. subst fs'. rewrite app_nil_r in *. eauto.
  - cbn [map one_by_one concat] in *. destruct H as (st & fs1 & H1 & H2 & H3). apply Forall_cons_iff in FL as [(NL & IK & FB & PI) FL].
    set (vm' := to_put vm l) in *. destruct (xtag_options vm') as [|[[o p]|x|x|]] eqn:EO.
    1, 3, 4, 5: unfold run_xtag in H1; rewrite EO in H1; cbn in H1; discriminate H1.
    assert (EA : exists c, xtag_args (Some (items_text l)) (own vm) false (xv_frame vm) true false (xv_create vm) (xv_always vm) false true [] = c /\ c = Ok (o, p)).
    { eexists. split; [reflexivity|]. unfold xtag_options, vm', to_put in EO. cbn [xv_args xv_xtags xv_owner xv_get xv_frame xv_merge xv_dry xv_create xv_always xv_adjust xv_backups xv_tag] in EO.
      rewrite VR in EO. cbn [required hbind] in EO. rewrite VG, VD, VM, VA, VB, VT in EO. fold (own vm) in EO.
      destruct (xtag_args _ _ _ _ _ _ _ _ _ _ _) as [x|[]|x|]; cbn in EO; try discriminate EO; now injection EO as ->. }
    destruct EA as (c & EA & ->). destruct (args_set _ _ _ _ _ _ _ _ _ _ _ _ _ EA) as (_ & _ & SC & _ & _ & AS & _). destruct (AS eq_refl) as (s0 & _ & _ & _ & _ & _ & _ & _ & PBk & _). clear AS.
    assert (IS : forall i, in_scope p i = true) by (intros i; unfold in_scope; now rewrite SC).
    assert (PI' : plain_items (before ++ l)) by (apply Forall_app; split; assumption).
    assert (GD : forall t t' u, In t v2 -> clouds_put (own vm) true (xv_frame vm) before t u -> clouds_put (own vm) true (xv_frame vm) l u t' -> Forall (good_frame (any_version t')) (shown t')).
    { intros t t' u M C1 C2. rewrite Forall_forall in V22', GF, RM. refine (tag_good (own vm) true (xv_frame vm) (before ++ l) t t' (V22' t M) OW PI' _ (GF t M) (put_twice _ _ _ _ _ _ _ C1 C2)).
      apply (room_less _ _ (concat ls)). rewrite <- app_assoc. now apply RM. }
    destruct (xtag_once z passes e entries w vm' o p path d nm fs st fs1 a u2 u1 l) as (w2 & w1 & X1 & X2 & X3); try assumption; try reflexivity.
    + unfold scope_fits. now rewrite SC.
    + intros i u t' M _ C2. unfold vm' in C2. cbn [to_put xv_merge xv_frame] in C2. rewrite VM in C2. change (own (to_put vm l)) with (own vm) in C2.
      unfold with_index in M. apply in_combine_r in M. assert (Y : exists t, In t v2 /\ clouds_put (own vm) true (xv_frame vm) before t u).
      { clear - CP M. induction CP as [|t u0 r r' C _ IH]; [destruct M|]. destruct M as [->|M]; [exists t; split; [now left|exact C]|]. destruct (IH M) as (t0 & I0 & C0). exists t0. split; [now right|exact C0]. }
      destruct Y as (t & It & Ct). exact (GD t t' u It Ct C2).
    + intros. left. exact PBk.
    + assert (X2' : Forall2 (clouds_put (own vm) true (xv_frame vm) l) u2 w2).
      { rewrite <- (with_index_all u2). clear - X2 IS VM. unfold vm' in X2. cbn [to_put xv_merge xv_frame] in X2. rewrite VM in X2. change (own (to_put vm l)) with (own vm) in X2.
        induction X2 as [|[i t] t' r r' C _ IH]; [constructor|]. cbn [map snd]. constructor; [|exact IH]. unfold clouds_read in C. cbn [fst snd] in C. now rewrite IS in C. }
      destruct (IH (before ++ l) fs1 fs' w2 w1 FL PI') as (v2' & v1' & Y1 & Y2 & Y3).
      * now rewrite <- app_assoc.
      * exact X1.
      * clear - CP X2'. revert w2 X2'. induction CP as [|t u r r' C _ IH]; intros w2 X; inversion X; subst; constructor; [eapply put_twice; eassumption|auto].
      * eapply same_v1_trans; eassumption.
      * exact H3.
      * exists v2', v1'. rewrite <- app_assoc in Y2. auto.
Qed.
Lemma xtag_merges z passes e entries w vm path d n a v2 v1 l ls fs fs' : let k := resolve (e_cwd e) path in
  crc_range z -> (0 < passes)%nat -> file_at e path d n -> 355 <= len a ->
  xv_get vm = false -> xv_dry vm = false -> xv_adjust vm = false -> xv_args vm = [path] -> xv_merge vm = true -> xv_backups vm = true -> given (xv_tag vm) = [] -> ~ In 0 (own vm) ->
  Forall (fun l => l <> [] /\ Forall item_ok l /\ fresh_bare [] [] l /\ plain_items l) (l :: ls) -> Forall (clouds_room (own vm) (concat (l :: ls))) v2 ->
  in_order z passes k a fs v2 v1 ->
  one_by_one (map (fun l => run_xtag z passes e entries w (to_put vm l)) (l :: ls)) (moderate k) fs fs' ->
  exists v2' v1', in_order z passes k a fs' v2' v1' /\ Forall2 (clouds_put (own vm) true (xv_frame vm) (concat (l :: ls))) v2 v2' /\ same_v1 v1 v1'.
Proof.
  intros k Hz Hp FA LA VG VD VA VR VM VB VT OW FL RM IO H. apply Forall_cons_iff in FL as [(NL & IK & FB & PI) FL]. cbn [map one_by_one concat] in *. destruct H as (st & fs1 & H1 & H2 & H3).
  destruct (xtag_options (to_put vm l)) as [|[[o p]|x|x|]] eqn:EO.
  1, 3, 4, 5: unfold run_xtag in H1; rewrite EO in H1; cbn in H1; discriminate H1.
  assert (EA : xtag_args (Some (items_text l)) (own vm) false (xv_frame vm) true false (xv_create vm) (xv_always vm) false true [] = Ok (o, p)).
  { unfold xtag_options, to_put in EO. cbn [xv_args xv_xtags xv_owner xv_get xv_frame xv_merge xv_dry xv_create xv_always xv_adjust xv_backups xv_tag] in EO.
    rewrite VR in EO. cbn [required hbind] in EO. rewrite VG, VD, VM, VA, VB, VT in EO. fold (own vm) in EO.
    destruct (xtag_args _ _ _ _ _ _ _ _ _ _ _) as [x|[]|x|]; cbn in EO; try discriminate EO; now injection EO as ->. }
  destruct (args_set _ _ _ _ _ _ _ _ _ _ _ _ _ EA) as (_ & _ & SC & _ & _ & AS & _). destruct (AS eq_refl) as (s0 & _ & _ & _ & _ & _ & _ & _ & PBk & _). clear AS.
  assert (IS : forall i, in_scope p i = true) by (intros i; unfold in_scope; now rewrite SC).
  assert (ST : Forall (fun t => any_version t <> V22) v2 /\ Forall (fun t => Forall (good_frame (any_version t)) (shown t)) v2).
  { destruct IO as (data & hl & _ & _ & _ & _ & _ & HS & V22'). split; [exact V22'|]. rewrite Forall_forall in *. intros t I. apply (storable_frames z); auto. }
  destruct (xtag_command_once z passes e entries w (to_put vm l) o p path d n fs st fs1 a v2 v1 l) as (w2 & w1 & X1 & X2 & X3); try assumption; try reflexivity.
  - unfold scope_fits. now rewrite SC.
  - intros i t M _. unfold with_index in M. apply in_combine_r in M. rewrite Forall_forall in RM. apply (room_less _ _ (concat ls)). now apply RM.
  - intros. left. exact PBk.
  - refine (xtag_history z passes e entries w vm path d n a v2 v1 Hz Hp FA LA VG VD VA VR VM VB VT OW (proj1 ST) (proj2 ST) ls l fs1 fs' w2 w1 FL PI RM X1 _ X3 H3).
    rewrite <- (with_index_all v2). clear - X2 IS VM. cbn [to_put xv_merge xv_frame] in X2. rewrite VM in X2. change (own (to_put vm l)) with (own vm) in X2.
    induction X2 as [|[i t] t' r r' C _ IH]; [constructor|]. cbn [map snd]. constructor; [|exact IH]. unfold clouds_read in C. cbn [fst snd] in C. now rewrite IS in C.
Qed.
