(** * Proofs: what a row of the report says. *)
From Verif Require Import Base M_Ints M_Stream M_Id3v1 M_Payload M_Frame M_Tag22 M_Tag23 M_Tag24 M_Charset M_Lookup M_Mp3 M_Track M_Read
  M_Tagset M_Process M_Cmds M_Csv M_Report S_Lookup S_Cmds S_Csv S_Report S_Tdf L_Lookup L_Cmds.
#[local] Open Scope N_scope.

(** ** Writing piece by piece *)
Lemma pthen_ok p q : snd p = Ok tt -> pthen p q = (fst p ++ fst q, snd q).
Proof. intros E. unfold pthen. rewrite E. reflexivity. Qed.
Lemma pthen_inv p q : snd (pthen p q) = Ok tt -> snd p = Ok tt /\ snd q = Ok tt.
Proof. unfold pthen. destruct (snd p) as [[]|e|u|] eqn:E; cbn [snd]; intros H; [auto|congruence..]. Qed.
Lemma put_then s q : pthen (put s) q = (s ++ fst q, snd q).
Proof. reflexivity. Qed.
Lemma pput_ok o : snd (pput o) = Ok tt -> exists s, o = Ok s.
Proof. destruct o; cbn; intros E; try discriminate E. eauto. Qed.
Lemma pall_ok {A} (f : A -> pr) (g : A -> bytes) l : (forall x, In x l -> f x = (g x, Ok tt)) ->
  pall (map f l) = (flat_map g l, Ok tt).
Proof.
  unfold pall. induction l as [|x r IH]; intros H; [reflexivity|]. cbn [map fold_right].
  rewrite (H x (or_introl eq_refl)), pthen_ok by reflexivity. rewrite IH by (intros y Y; apply H; right; exact Y). reflexivity.
Qed.
Lemma pall_inv {A} (f : A -> pr) l : snd (pall (map f l)) = Ok tt -> forall x, In x l -> snd (f x) = Ok tt.
Proof.
  unfold pall. induction l as [|y r IH]; intros H x X; [destruct X|]. cbn [map fold_right] in H.
  apply pthen_inv in H as (A1 & A2). destruct X as [-> | X]; auto.
Qed.

(** ** The tables in order *)
Lemma at_addr_end st x a c : at_addr a st = Some c -> at_addr a (set_frames (l_frames st ++ [x]) st) = Some c.
Proof.
  unfold at_addr. cbn [set_frames l_frames]. generalize (l_frames st). induction l as [|y r IH]; [discriminate|].
  cbn [find app]. destruct (fst y =? a); [auto|exact IH].
Qed.
Lemma get_all_ext st st' l bs : (forall a c, at_addr a st = Some c -> at_addr a st' = Some c) -> get_all st l = Ok bs -> get_all st' l = Ok bs.
Proof.
  intros H. revert bs. induction l as [|(a, i) r IH]; intros bs E; [exact E|]. cbn [get_all] in *.
  destruct (at_addr a st) as [c|] eqn:A; [|discriminate E]. rewrite (H _ _ A).
  apply bind_ok in E as (b & E1 & E2). rewrite (IH _ E1). exact E2.
Qed.
Lemma get_all_snoc st l bs a i c : get_all st l = Ok bs -> at_addr a st = Some c ->
  get_all st (l ++ [(a, i)]) = Ok (bs ++ [f_body (c_frame c)]).
Proof.
  intros E A. revert bs E. induction l as [|(b, j) r IH]; intros bs E; cbn [app get_all] in *.
  - apply Ok_inj in E. subst bs. rewrite A. reflexivity.
  - destruct (at_addr b st); [|discriminate E]. apply bind_ok in E as (d & E1 & E2). apply Ok_inj in E2. subst bs.
    rewrite (IH _ E1). reflexivity.
Qed.
Lemma at_addr_fresh st x : Forall (fun y => fst y < fst x) (l_frames st) -> at_addr (fst x) (set_frames (l_frames st ++ [x]) st) = Some (snd x).
Proof.
  unfold at_addr. cbn [set_frames l_frames]. induction 1 as [|y r A F IH]; cbn [find app].
  - rewrite N.eqb_refl. reflexivity.
  - destruct (N.eqb_spec (fst y) (fst x)) as [Q|_]; [lia|]. exact IH.
Qed.

Definition of_kind (k : kind) (f : frame) : bool :=
  match k, kind_of_body (f_body f) with KComm, KComm | KCount, KCount => true | _, _ => false end.
Record in_order (st : ltag) : Prop := mkOrd {
  o_next : Forall (fun x => fst x < l_next st) (l_frames st);
  o_comms : get_all st (l_comms st) = Ok (map f_body (filter (of_kind KComm) (frames_of st)));
  o_counts : get_all st (l_counts st) = Ok (map f_body (filter (of_kind KCount) (frames_of st)))
}.
Lemma at_addr_frames st st' a : l_frames st' = l_frames st -> at_addr a st' = at_addr a st.
Proof. unfold at_addr. intros ->. reflexivity. Qed.

Lemma parsed_order f st : in_order st -> in_order (parsed f st).
Proof.
  intros O. destruct O as [ON OC OK].
  set (x := (l_next st, new_frame f)). set (st1 := set_frames (l_frames st ++ [x]) st).
  assert (FR : l_frames (parsed f st) = l_frames st ++ [x]).
  { unfold parsed, put_at, add_lookups, bump, set_frames, size_l. cbn [l_frames]. apply insert_at_end. }
  assert (OLD : forall a c, at_addr a st = Some c -> at_addr a (parsed f st) = Some c).
  { intros a c A. rewrite (at_addr_frames st1) by exact FR. apply at_addr_end. exact A. }
  assert (NEW : at_addr (l_next st) (parsed f st) = Some (new_frame f)).
  { rewrite (at_addr_frames st1) by exact FR. apply (at_addr_fresh st x). exact ON. }
  assert (FO : frames_of (parsed f st) = frames_of st ++ [f]).
  { unfold frames_of. rewrite FR, map_app. reflexivity. }
  constructor.
  - rewrite FR. apply Forall_app. split.
    + eapply Forall_impl; [|exact ON]. intros y Y. cbn in *. lia.
    + constructor; [|constructor]. cbn. lia.
  - rewrite FO, filter_app, map_app. cbn [filter]. unfold of_kind at 2.
    destruct (kind_of_body (f_body f)) eqn:K; cbn [map]; rewrite ?app_nil_r;
      unfold parsed, put_at; rewrite K; cbn [over_of_kind add_lookups bump set_frames l_comms];
      try (eapply get_all_ext; [|exact OC]; intros a c A; apply OLD in A; unfold parsed in A; rewrite K in A; exact A).
    apply (get_all_snoc _ _ _ _ _ (new_frame f)).
    + eapply get_all_ext; [|exact OC]; intros a c A; apply OLD in A; unfold parsed in A; rewrite K in A; exact A.
    + unfold parsed in NEW. rewrite K in NEW. exact NEW.
  - rewrite FO, filter_app, map_app. cbn [filter]. unfold of_kind at 2.
    destruct (kind_of_body (f_body f)) eqn:K; cbn [map]; rewrite ?app_nil_r;
      unfold parsed, put_at; rewrite K; cbn [over_of_kind add_lookups bump set_frames l_counts];
      try (eapply get_all_ext; [|exact OK]; intros a c A; apply OLD in A; unfold parsed in A; rewrite K in A; exact A).
    apply (get_all_snoc _ _ _ _ _ (new_frame f)).
    + eapply get_all_ext; [|exact OK]; intros a c A; apply OLD in A; unfold parsed in A; rewrite K in A; exact A.
    + unfold parsed in NEW. rewrite K in NEW. exact NEW.
Qed.
Lemma of_frames_order fs : in_order (of_frames fs).
Proof.
  unfold of_frames. assert (G : in_order empty_ltag) by (constructor; [constructor|reflexivity|reflexivity]).
  revert G. generalize empty_ltag. induction fs as [|f r IH]; intros st O; [exact O|]. cbn [fold_left]. apply IH. apply parsed_order. exact O.
Qed.

Lemma kind_comm v f : parsed_frame v f -> of_kind KComm f = bytes_eqb (f_id f) (comm_id v).
Proof.
  intros P. unfold of_kind. rewrite <- P.
  destruct (bytes_eqb_spec (f_id f) (comm_id v)) as [->|NE]; [destruct v; reflexivity|].
  destruct (kind_of v (f_id f)) eqn:K; try reflexivity. exfalso. revert K.
  destruct v; cbn [kind_of comm_id] in *;
    repeat (match goal with |- context [bytes_eqb ?a ?b] => destruct (bytes_eqb_spec a b) as [E|_] end; try discriminate; try (rewrite E in NE; congruence));
    destruct (mem_id (f_id f) _); try discriminate;
    repeat (match goal with |- context [bytes_eqb ?a ?b] => destruct (bytes_eqb_spec a b) as [E|_] end; try discriminate).
Qed.
Lemma kind_count v f : parsed_frame v f -> of_kind KCount f = bytes_eqb (f_id f) (count_id v).
Proof.
  intros P. unfold of_kind. rewrite <- P.
  destruct (bytes_eqb_spec (f_id f) (count_id v)) as [->|NE]; [destruct v; reflexivity|].
  destruct (kind_of v (f_id f)) eqn:K; try reflexivity. exfalso. revert K.
  destruct v; cbn [kind_of count_id] in *;
    repeat (match goal with |- context [bytes_eqb ?a ?b] => destruct (bytes_eqb_spec a b) as [E|_] end; try discriminate; try (rewrite E in NE; congruence));
    destruct (mem_id (f_id f) _); try discriminate;
    repeat (match goal with |- context [bytes_eqb ?a ?b] => destruct (bytes_eqb_spec a b) as [E|_] end; try discriminate).
Qed.
Lemma filter_kind v k id fs : (forall f, parsed_frame v f -> of_kind k f = bytes_eqb (f_id f) id) ->
  Forall (parsed_frame v) fs -> filter (of_kind k) fs = with_id id fs.
Proof.
  intros H. unfold with_id. induction 1 as [|f r P F IH]; [reflexivity|]. cbn [filter]. rewrite (H f P), IH. reflexivity.
Qed.
Lemma comments_in_order t : fresh t -> get_comments (tables t) = Ok (map f_body (with_id (comm_id (any_version t)) (shown t))).
Proof.
  intros (_ & P & _). unfold get_comments. destruct (of_frames_order (map c_frame (any_frames t))) as [_ C _].
  fold (tables t) in C. rewrite C, tables_frames. f_equal. f_equal. apply (filter_kind (any_version t)); [|exact P].
  intros f. apply kind_comm.
Qed.
Lemma counts_in_order t : fresh t -> get_counts (tables t) = Ok (map f_body (with_id (count_id (any_version t)) (shown t))).
Proof.
  intros (_ & P & _). unfold get_counts. destruct (of_frames_order (map c_frame (any_frames t))) as [_ _ C].
  fold (tables t) in C. rewrite C, tables_frames. f_equal. f_equal. apply (filter_kind (any_version t)); [|exact P].
  intros f. apply kind_count.
Qed.

Lemma has_frame_fresh t id : fresh t -> has_frame (tables t) id = N.of_nat (length (with_id id (shown t))).
Proof.
  intros F. destruct (ready_fresh t F) as (_ & R & _). destruct (ids_agree_l _ _ R id) as (E & _). rewrite E, tables_frames. reflexivity.
Qed.
Lemma get_frame_fresh t id c : fresh t -> with_id id (shown t) <> [] -> exists f, get_frame c (tables t) id = Ok f /\ In f (with_id id (shown t)).
Proof.
  intros F W. destruct (ready_fresh t F) as (_ & R & _). destruct (ids_agree_l _ _ R id) as (_ & G). rewrite tables_frames in G. auto.
Qed.

(** The count of a tag of version 2.2 or 2.3. *)
Lemma play_count_fresh t f : fresh t -> any_version t <> V24 -> with_id (count_id (any_version t)) (shown t) = [f] ->
  play_count (any_version t) (tables t) = Ok (f_body f).
Proof.
  intros F NV W. pose proof (counts_in_order t F) as C. rewrite W in C. cbn [map] in C.
  assert (H1 : has_play_count (any_version t) (tables t) = 1).
  { transitivity (has_frame (tables t) (count_id (any_version t))).
    - unfold has_play_count. destruct (any_version t); [reflexivity|reflexivity|congruence].
    - rewrite has_frame_fresh by exact F. rewrite W. reflexivity. }
  unfold play_count. rewrite H1. unfold get_counts in C. destruct (l_counts (tables t)) as [|(a, i) r]; [discriminate C|].
  cbn [get_all] in C. destruct (at_addr a (tables t)) as [c|]; [|discriminate C]. apply bind_ok in C as (bs & _ & C).
  apply Ok_inj in C. congruence.
Qed.
(** The count of a tag of version 2.4 is not found. *)
Lemma play_count_v24 t : fresh t -> any_version t = V24 -> with_id (B "CNT") (shown t) = [] ->
  play_count V24 (tables t) = Throw LogicError.
Proof.
  intros F V W. unfold play_count. cbn [has_play_count]. rewrite has_frame_fresh by exact F. rewrite W. reflexivity.
Qed.
