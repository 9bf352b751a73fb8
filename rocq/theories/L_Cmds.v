(** * Proofs: tags as they are read, and setting texts in them. *)
From Coq Require Import Sorting.Permutation.
From Verif Require Import Base M_Ints M_Stream M_Id3v1 M_Payload M_Frame M_Tag22 M_Tag23 M_Tag24 M_Charset M_TextId M_Lookup M_Read M_Process M_Cmds
  S_Charset S_Lookup S_Cmds L_Charset L_Lookup L_Lookup3.

(** ** Reading *)
Lemma sbind_inv {A C} (m : ST A) (f : A -> ST C) s c s' : sbind m f s = (Ok c, s') ->
  exists a s1, m s = (Ok a, s1) /\ f a s1 = (Ok c, s').
Proof. unfold sbind. destruct (m s) as ([a|e|u|] & s1); intros E; try discriminate E. eauto. Qed.

Lemma sret_inv {A} (a b : A) s s' : sret a s = (Ok b, s') -> a = b.
Proof. unfold sret. intros E. congruence. Qed.

Lemma parse_stream_inv {T} (P : bytes -> outcome T) n s t s' : parse_stream P n s = (Ok t, s') -> exists buf, P buf = Ok t.
Proof.
  unfold parse_stream. intros E. do 3 apply sbind_inv in E as (? & ? & _ & E).
  apply sbind_inv in E as (t' & s1 & R & E). apply sbind_inv in E as (? & ? & _ & E). apply sret_inv in E. subst t'.
  unfold restoring in R. destruct (sbind _ _ _) as ([a|e|u|] & s2) eqn:Q.
  - apply sbind_inv in Q as (buf & s3 & _ & Q). exists buf. unfold slift in Q. congruence.
  - apply sbind_inv in R as (? & ? & _ & R). apply sbind_inv in R as (? & ? & _ & R). discriminate R.
  - discriminate R.
  - discriminate R.
Qed.

Lemma parse_body_kind v k l after b : parse_body v k l after = Ok b -> kind_of_body b = k.
Proof.
  destruct k; cbn [parse_body]; intros E; try (apply Ok_inj in E; subst b; reflexivity);
    apply bind_ok in E as (x & _ & E); apply Ok_inj in E; subst b; reflexivity.
Qed.
Lemma payload_kind v k l n b : parse_payload v k l n = Ok b -> kind_of_body b = k.
Proof.
  unfold parse_payload. intros E. destruct (len l <? n); [destruct (parse_body _ _ _ _); discriminate E|].
  eapply parse_body_kind. exact E.
Qed.

(** The body is what a parser made of some payload. *)
Definition payload_frame (v : version) (f : frame) : Prop := exists l n, parse_payload v (kind_of v (f_id f)) l n = Ok (f_body f).
Lemma payload_parsed v f : payload_frame v f -> parsed_frame v f.
Proof. intros (l & n & E). unfold parsed_frame. symmetry. eapply payload_kind. exact E. Qed.

Lemma frames22_parsed fuel : forall n l after fs pad, frames22 fuel n l after = Ok (fs, pad) -> Forall (payload_frame V22) fs.
Proof.
  induction fuel as [|fuel IH]; intros n l after fs pad E; [discriminate E|]. cbn [frames22] in E.
  destruct l as [|x l]; [apply Ok_inj in E; injection E as <- _; constructor|].
  apply bind_ok in E as (h & _ & E). destruct h as [(id, cb)|]; [|apply Ok_inj in E; injection E as <- _; constructor].
  destruct (n <=? cb); [discriminate E|]. apply bind_ok in E as (b & PB & E). apply bind_ok in E as ((fs1, pad1) & FR & E).
  apply Ok_inj in E. assert (E' : fs = mkFrame id no_flags b :: fs1) by congruence. subst fs.
  constructor; [|eapply IH; exact FR]. unfold payload_frame. cbn [f_id f_body]. eauto.
Qed.
Lemma frames23_parsed z fuel : forall n l after fs, frames23 z fuel n l after = Ok fs -> Forall (payload_frame V23) fs.
Proof.
  induction fuel as [|fuel IH]; intros n l after fs E; [discriminate E|]. cbn [frames23] in E.
  destruct l as [|x l]; [apply Ok_inj in E; subst fs; constructor|].
  apply bind_ok in E as (h & _ & E). destruct h as [(((id, cb), f0), f1)|]; [|apply Ok_inj in E; subst fs; constructor].
  destruct (n <=? cb); [discriminate E|]. apply bind_ok in E as (((((dcsz, enc), gid), pread), cbr) & _ & E).
  apply bind_ok in E as (b & PB & E). apply bind_ok in E as (r & FR & E).
  apply Ok_inj in E. subst fs. constructor; [|eapply IH; exact FR].
  unfold payload_frame. cbn [f_id f_body]. destruct enc as [m|]; [discriminate PB|].
  destruct dcsz as [k|]; [apply bind_ok in PB as (d & _ & PB)|]; eauto.
Qed.
Lemma frames24_parsed z fuel : forall n ms l fs, frames24 z fuel n ms l = Ok fs -> Forall (payload_frame V24) fs.
Proof.
  induction fuel as [|fuel IH]; intros n ms l fs E; [discriminate E|]. cbn [frames24] in E.
  destruct l as [|x l]; [apply Ok_inj in E; subst fs; constructor|].
  apply bind_ok in E as (h & _ & E). destruct h as [id|]; [|apply Ok_inj in E; subst fs; constructor].
  destruct (len _ <? 11); [discriminate E|]. apply bind_ok in E as (cb & _ & E).
  destruct (n <=? cb); [discriminate E|]. cbv zeta in E. apply bind_ok in E as (((((gid, enc), dli), pread), cbr) & _ & E).
  apply bind_ok in E as (b & PB & E). apply bind_ok in E as (r & FR & E).
  apply Ok_inj in E. subst fs. constructor; [|eapply IH; exact FR].
  unfold payload_frame. cbn [f_id f_body]. destruct enc as [m|]; [destruct (existsb _ _); discriminate PB|].
  destruct dli as [k|]; [apply bind_ok in PB as (d & _ & PB)|]; eauto.
Qed.

Definition ext_new (t : anytag) : Prop :=
  match t with A23 t => match t3_ext t with Some x => x_dirty x = true | None => True end | _ => True end.
Definition fresh (t : anytag) : Prop :=
  any_frames t = map new_frame (shown t) /\ Forall (parsed_frame (any_version t)) (shown t) /\ ext_new t.
Definition from_payloads (t : anytag) : Prop := fresh t /\ Forall (payload_frame (any_version t)) (shown t).

Lemma fresh_of t fs : any_frames t = map new_frame fs -> Forall (payload_frame (any_version t)) fs -> ext_new t -> from_payloads t.
Proof.
  intros E F X. assert (S1 : shown t = fs). { unfold shown. rewrite E, map_map. apply map_id. }
  unfold from_payloads, fresh. rewrite S1. split; [split; [exact E|split; [|exact X]]|exact F]. eapply Forall_impl; [apply payload_parsed|exact F].
Qed.

Lemma parse_ext_dirty p x : parse_ext23 p = Ok x -> x_dirty x = true.
Proof.
  unfold parse_ext23. intros H.
  repeat (match type of H with context [match ?y with _ => _ end] => destruct y; try discriminate H end; cbv zeta in H);
    apply Ok_inj in H; subst x; reflexivity.
Qed.

Lemma read_version_fresh z passes H s t s' : read_version z passes H s = (Ok t, s') -> from_payloads t.
Proof.
  unfold read_version. intros E.
  destruct (2 =? i_version H); [|destruct (3 =? i_version H); [|destruct (4 =? i_version H); [|discriminate E]]];
  apply sbind_inv in E as (u & s1 & E & Q); apply sret_inv in Q; subst t; apply parse_stream_inv in E as (buf & E).
  - unfold parse_body22 in E. cbv zeta in E. apply bind_ok in E as ((fs, pad) & FR & E). apply Ok_inj in E. subst u.
    eapply fresh_of; [reflexivity| |exact Logic.I]. eapply frames22_parsed. exact FR.
  - unfold parse_body23 in E. cbv zeta in E. apply bind_ok in E as ((ext, l) & EX & E).
    apply bind_ok in E as ((pad, ms) & _ & E). apply bind_ok in E as (fs & FR & E). apply Ok_inj in E. subst u.
    eapply fresh_of; [reflexivity| |].
    + eapply frames23_parsed. exact FR.
    + cbn [ext_new t3_ext]. destruct (negb _); [|apply Ok_inj in EX; injection EX as <- _; exact Logic.I].
      apply bind_ok in EX as (y & PY & EX). apply Ok_inj in EX. injection EX as <- _. exact (parse_ext_dirty _ _ PY).
  - unfold parse_body24 in E. apply bind_ok in E as ((ext, l) & _ & E).
    apply bind_ok in E as ((pad, ms) & _ & E). apply bind_ok in E as (fs & FR & E). apply Ok_inj in E. subst u.
    eapply fresh_of; [reflexivity| |exact Logic.I]. eapply frames24_parsed. exact FR.
Qed.

Lemma read_loop_fresh z passes fuel : forall s ts s', read_all_loop z passes fuel s = (Ok ts, s') -> Forall from_payloads ts.
Proof.
  induction fuel as [|fuel IH]; intros s ts s' E; [discriminate E|]. cbn [read_all_loop] in E.
  apply sbind_inv in E as (p & s1 & M & E). destruct p as [t|]; [|apply sret_inv in E; subst ts; constructor].
  apply sbind_inv in E as (r & s2 & R & E). apply sret_inv in E. subst ts. constructor; [|eapply IH; exact R].
  unfold maybe_read_id3v2 in M. apply sbind_inv in M as (h & s3 & _ & M). destruct h as [H|]; [|apply sret_inv in M; discriminate M].
  apply sbind_inv in M as (u & s4 & RV & M). apply sret_inv in M. injection M as ->. eapply read_version_fresh. exact RV.
Qed.

Lemma tagset_payloads z passes data v2 v1 : read_tagset z passes data = Ok (v2, v1) -> Forall from_payloads v2.
Proof.
  unfold read_tagset. destruct (sbind _ _ _) as (o & s) eqn:E. cbn [fst]. intros ->.
  apply sbind_inv in E as (ts & s1 & R & E). apply sbind_inv in E as (u & s2 & _ & E). apply sret_inv in E. injection E as -> ->.
  unfold read_all_id3v2 in R. eapply read_loop_fresh. exact R.
Qed.

Lemma tagset_fresh z passes data v2 v1 : read_tagset z passes data = Ok (v2, v1) -> Forall fresh v2.
Proof. intros R. eapply Forall_impl; [|eapply tagset_payloads; exact R]. intros t (F & _). exact F. Qed.

Lemma read_fresh t : as_read t -> fresh t.
Proof. intros (z & passes & data & v2 & v1 & R & M). apply tagset_fresh in R. rewrite Forall_forall in R. auto. Qed.

(** ** The tables *)
Lemma of_frames_l fs : map snd (l_frames (of_frames fs)) = map new_frame fs.
Proof.
  unfold of_frames.
  assert (G : forall st, map snd (l_frames (fold_left (fun st f => parsed f st) fs st)) = map snd (l_frames st) ++ map new_frame fs).
  { induction fs as [|f r IH]; intros st; [cbn; rewrite app_nil_r; reflexivity|]. cbn [fold_left map]. rewrite IH.
    unfold parsed. cbn [put_at add_lookups bump set_frames l_frames]. unfold size_l. rewrite insert_at_end, map_app, <- app_assoc. reflexivity. }
  rewrite G. reflexivity.
Qed.
Lemma frames_of_of fs : frames_of (of_frames fs) = fs.
Proof.
  unfold frames_of. rewrite <- (map_map snd c_frame), of_frames_l, map_map. cbn [new_frame c_frame]. apply map_id.
Qed.
Lemma tables_frames t : frames_of (tables t) = shown t.
Proof. unfold tables. apply frames_of_of. Qed.
Lemma with_tables_same t : fresh t -> with_tables (tables t) t = t.
Proof.
  intros (F & _). unfold with_tables, tables. rewrite of_frames_l. fold (shown t). rewrite <- F. destruct t as [[]|[]|[]]; reflexivity.
Qed.
Lemma with_tables_shown st t : shown (with_tables st t) = frames_of st /\ same_rest t (with_tables st t).
Proof.
  split; [|destruct t as [[]|[]|[]]; reflexivity].
  unfold shown, with_tables. replace (any_frames (any_set_frames (map snd (l_frames st)) t)) with (map snd (l_frames st)) by (destruct t as [[]|[]|[]]; reflexivity).
  rewrite map_map. reflexivity.
Qed.

(** What setting texts needs; positions do not matter. *)
Record ready (v : version) (st : ltag) : Prop := mkReady {
  y_nodup : NoDup (map fst (l_frames st));
  y_next : Forall (fun x => fst x < l_next st) (l_frames st);
  y_texts : forall id a, In (id, a) (l_texts st) ->
     exists i c t, nthN (l_frames st) i = Some (a, c) /\ id_of c = id /\ f_body (c_frame c) = BText t;
  y_full : forall i a c t, nthN (l_frames st) i = Some (a, c) -> f_body (c_frame c) = BText t -> In (id_of c, a) (l_texts st);
  y_parsed : Forall (parsed_frame v) (frames_of st)
}.

Lemma ready_fresh t : fresh t -> ready (any_version t) (tables t) /\ reg (any_version t) none (tables t) /\ full (any_version t) none (tables t).
Proof.
  intros (F & P & _). destruct (reg_of_frames _ _ P) as (R & U). fold (tables t) in R, U.
  split; [|auto]. constructor.
  - apply R.
  - apply R.
  - intros id a M. destruct (r_texts _ _ _ R id a M) as (_ & i & c & u & X & _ & ID & W). eauto 6.
  - intros i a c u X W. eapply (u_texts _ _ _ U); eauto.
  - rewrite tables_frames. exact P.
Qed.

Lemma with_id_found v st id : ready v st -> kind_of v id = KText -> with_id id (frames_of st) <> [] -> values (l_texts st) id <> [].
Proof.
  intros R K W. destruct (with_id id (frames_of st)) as [|f r] eqn:E; [congruence|].
  assert (M : In f (with_id id (frames_of st))) by (rewrite E; left; reflexivity).
  apply with_id_In in M as (i & a & c & X & <- & ID).
  assert (P : parsed_frame v (c_frame c)).
  { pose proof (y_parsed _ _ R) as P. rewrite Forall_forall in P. apply P. unfold frames_of. change (c_frame c) with ((fun x => c_frame (snd x)) (a, c)).
    apply in_map. eapply nthN_In. exact X. }
  unfold parsed_frame in P. change (f_id (c_frame c)) with (id_of c) in P. rewrite ID, K in P.
  destruct (f_body (c_frame c)) as [| | |u| | | | | |] eqn:FB; try discriminate P.
  pose proof (y_full _ _ R i a c u X FB) as Q. rewrite ID in Q. apply values_In in Q. intros V. rewrite V in Q. destruct Q.
Qed.

Lemma with_id_none v st id : ready v st -> with_id id (frames_of st) = [] -> values (l_texts st) id = [].
Proof.
  intros R W. destruct (values (l_texts st) id) as [|a r] eqn:V; [reflexivity|]. exfalso.
  assert (M : In (id, a) (l_texts st)) by (apply values_In; rewrite V; left; reflexivity).
  destruct (y_texts _ _ R id a M) as (i & c & t & X & ID & _).
  assert (Q : In (c_frame c) (with_id id (frames_of st))) by (apply with_id_In; eauto 6). rewrite W in Q. destruct Q.
Qed.

(** The frame of an address is edited in place. *)
Lemma edit_frames' a t st i c : NoDup (map fst (l_frames st)) -> nthN (l_frames st) i = Some (a, c) ->
  exists l1 l2, frames_of st = l1 ++ c_frame c :: l2 /\
    frames_of (edit_at a (BText t) st) = l1 ++ mkFrame (f_id (c_frame c)) (f_flags (c_frame c)) (BText t) :: l2.
Proof.
  intros ND X. destruct (nthN_split _ _ _ X) as (l1 & l2 & E & L). 
  exists (map (fun x => c_frame (snd x)) l1), (map (fun x => c_frame (snd x)) l2).
  unfold frames_of, edit_at. cbn [set_frames l_frames]. rewrite E in *.
  rewrite !map_app. cbn [map fst snd]. rewrite map_app in ND. cbn [map fst] in ND.
  split; [reflexivity|]. rewrite N.eqb_refl. cbn [snd edit_body c_frame].
  apply NoDup_remove_2 in ND.
  assert (K : forall l, (forall x, In x l -> fst x <> a) ->
     map (fun x => c_frame (snd x)) (map (fun x : N * cframe => if fst x =? a then (fst x, edit_body (BText t) (snd x)) else x) l) =
     map (fun x => c_frame (snd x)) l).
  { intros l H. rewrite map_map. apply map_ext_in. intros x M. specialize (H x M). apply N.eqb_neq in H. rewrite H. reflexivity. }
  rewrite !K; [reflexivity| |]; intros x M Q; apply ND; subst a; apply in_or_app; [right|left]; apply in_map; exact M.
Qed.

Lemma ready_edit v a t st i c : ready v st -> nthN (l_frames st) i = Some (a, c) -> kind_of v (id_of c) = KText ->
  f_body (c_frame c) <> BUnknown [] -> In (id_of c, a) (l_texts st) -> ready v (edit_at a (BText t) st).
Proof.
  intros R X K _ M. constructor.
  - rewrite edit_at_fst. apply R.
  - apply Forall_forall. intros x N1. pose proof (y_next _ _ R) as F. rewrite Forall_forall in F.
    assert (Q : In (fst x) (map fst (l_frames st))) by (rewrite <- (edit_at_fst a (BText t) st); apply in_map; exact N1).
    apply in_map_iff in Q as (y & <- & Q). change (l_next (edit_at a (BText t) st)) with (l_next st). auto.
  - change (l_texts (edit_at a (BText t) st)) with (l_texts st). intros id b P.
    destruct (y_texts _ _ R id b P) as (j & d & u & Y & ID & W). exists j. rewrite edit_at_nth, Y.
    destruct (b =? a); [exists (edit_body (BText t) d), t|exists d, u]; auto.
  - intros j b d u Y W. change (l_texts (edit_at a (BText t) st)) with (l_texts st).
    rewrite edit_at_nth in Y. destruct (nthN (l_frames st) j) as [(b', d')|] eqn:Z; [|discriminate Y].
    destruct (b' =? a) eqn:Q.
    + apply N.eqb_eq in Q. subst b'. injection Y as <- <-. change (id_of (edit_body (BText t) d')) with (id_of d').
      assert (j = i) by (eapply addr_unique; [apply R|exact Z|exact X]). subst j. rewrite X in Z. injection Z as ->. exact M.
    + injection Y as <- <-. eapply (y_full _ _ R); [exact Z|exact W].
  - destruct (edit_frames' a t st i c (y_nodup _ _ R) X) as (l1 & l2 & E1 & E2). rewrite E2.
    pose proof (y_parsed _ _ R) as P. rewrite E1 in P. rewrite Forall_app in *. destruct P as (P1 & P2).
    apply Forall_cons_iff in P2 as (P2 & P3). split; [exact P1|]. constructor; [|exact P3]. exact K.
Qed.

Lemma ready_add v st id t : ready v st -> kind_of v id = KText ->
  ready v (put_at OvText (size_l st) (new_frame (mkFrame id no_flags (BText t))) st).
Proof.
  intros R K. set (cf := new_frame (mkFrame id no_flags (BText t))). set (st' := put_at _ _ _ _).
  assert (FR : l_frames st' = l_frames st ++ [(l_next st, cf)]).
  { subst st'. cbn [put_at add_lookups bump set_frames l_frames]. unfold size_l. apply insert_at_end. }
  assert (TX : l_texts st' = l_texts st ++ [(id, l_next st)]) by reflexivity.
  assert (NX : l_next st' = l_next st + 1) by reflexivity. clearbody st'.
  assert (FN : ~ In (l_next st) (map fst (l_frames st))).
  { intros M. apply in_map_iff in M as (x & E & M). pose proof (y_next _ _ R) as F. rewrite Forall_forall in F. specialize (F x M). lia. }
  constructor.
  - rewrite FR, map_app. apply NoDup_snoc; [apply R|exact FN].
  - rewrite FR, NX. apply Forall_app. split.
    + eapply Forall_impl; [|apply R]. cbn beta. intros x L. lia.
    + constructor; [cbn [fst]; lia|constructor].
  - rewrite TX, FR. intros k a M. apply in_app_or in M as [M|[M|[]]].
    + destruct (y_texts _ _ R k a M) as (i & c & u & X & ID & W). exists i, c, u. split; [|auto].
      rewrite nthN_app1 by (apply (nthN_lt _ _ _ X)). exact X.
    + injection M as <- <-. exists (N.of_nat (length (l_frames st))), cf, t. split; [apply nthN_app_at|auto].
  - rewrite TX, FR. intros i a c u X W. destruct (N.lt_ge_cases i (N.of_nat (length (l_frames st)))) as [L|L].
    + rewrite nthN_app1 in X by exact L. apply in_or_app. left. eapply (y_full _ _ R); eassumption.
    + unfold nthN in X. rewrite nth_error_app2 in X by lia. destruct (_ - _)%nat as [|k]; cbn in X; [|destruct k; discriminate X].
      injection X as <- <-. apply in_or_app. right. left. reflexivity.
  - unfold frames_of. rewrite FR, map_app. apply Forall_app. split; [apply R|]. constructor; [exact K|constructor].
Qed.

Lemma stored_text ic v src s : storable ic v src s ->
  exists t, text_new v ic s src false NoFail = Ok t /\ text_set v ic s src false NoFail = Ok t /\ text_as_str v ic t src NoFail None = Ok s.
Proof.
  intros (NE & NN & NB & NT & CU & out & IC & NO & LO & IC').
  pose proof (to_bytes_short ic s src (stored v) false NoFail out NN NE CU IC LO) as TB. cbn [app] in TB.
  exists (mkText (match v with V24 => 3 | _ => 0 end) out). split; [|split].
  - unfold text_new, text_set24. destruct v; cbn [stored encshim encshim2] in *; rewrite TB; reflexivity.
  - unfold text_set, text_set24. destruct v; cbn [stored encshim encshim2] in *; rewrite TB; reflexivity.
  - eapply as_str_stored; try reflexivity; eassumption.
Qed.

(** Setting one text. *)
Lemma set_put v ic st c id s src : ready v st -> kind_of v id = KText -> storable ic v src s ->
  exists st', set_text_frame v ic c id s src false NoFail st = Ok st' /\ ready v st' /\
    text_put ic v src id s (frames_of st) (frames_of st').
Proof.
  intros R K G. destruct (stored_text _ _ _ _ G) as (t & TN & TS & RD). unfold set_text_frame.
  destruct (pick c (values (l_texts st) id)) as [a|] eqn:P.
  - assert (M := pick_In _ _ _ P). apply values_In in M.
    destruct (y_texts _ _ R id a M) as (i & d & u & X & ID & W).
    rewrite (at_addr_spec st i a d (y_nodup _ _ R) X), TS. cbn [bind]. exists (edit_at a (BText t) st). split; [reflexivity|]. split.
    + eapply ready_edit; [exact R|exact X| | |]; rewrite ?ID; [exact K|rewrite W; discriminate|exact M].
    + left. destruct (edit_frames' a t st i d (y_nodup _ _ R) X) as (l1 & l2 & E1 & E2).
      exists l1, (c_frame d), (mkFrame (f_id (c_frame d)) (f_flags (c_frame d)) (BText t)), l2.
      repeat (split; [assumption || reflexivity|]). exists t. auto.
  - rewrite TN. cbn [bind]. eexists. split; [reflexivity|]. split; [apply ready_add; assumption|]. right. split.
    + destruct (with_id id (frames_of st)) as [|f r] eqn:E; [reflexivity|]. exfalso.
      assert (V : values (l_texts st) id <> []) by (apply (with_id_found v); [exact R|exact K|rewrite E; discriminate]).
      destruct (pick_some c _ V) as (x & PX). congruence.
    + exists (mkFrame id no_flags (BText t)). split.
      * unfold frames_of. cbn [put_at add_lookups bump set_frames l_frames]. unfold size_l. rewrite insert_at_end, map_app. reflexivity.
      * repeat (split; [reflexivity|]). exists t. auto.
Qed.

Lemma put_keeps_id ic v src id s fs fs' : text_put ic v src id s fs fs' ->
  exists fs1 fs2, fs' = fs1 ++ fs2 /\
    Forall2 (fun f f' => f_id f' = f_id f /\ f_flags f' = f_flags f /\ (f' = f \/ f_id f = id /\ reads ic v src f' s)) fs fs1 /\
    map f_id fs2 = (if existsb (fun f => bytes_eqb (f_id f) id) fs then [] else [id]) /\
    Forall (fun f => f_flags f = no_flags /\ f_id f = id /\ reads ic v src f s) fs2 /\
    (exists f, In f fs' /\ f_id f = id /\ reads ic v src f s).
Proof.
  assert (RF : forall l, Forall2 (fun f f' : frame => f_id f' = f_id f /\ f_flags f' = f_flags f /\ (f' = f \/ f_id f = id /\ reads ic v src f' s)) l l).
  { induction l; constructor; auto. }
  intros [(l1 & f & f' & l2 & E1 & E2 & I1 & I2 & FL & RD)|(W & f' & E & I1 & FL & RD)].
  - exists (l1 ++ f' :: l2), []. rewrite app_nil_r. split; [exact E2|]. split; [|split; [|split; [constructor|]]].
    + subst fs. apply Forall2_app; [apply RF|]. constructor; [|apply RF]. split; [congruence|]. split; [exact FL|]. right. auto.
    + subst fs. rewrite existsb_app. cbn [existsb]. rewrite I1, beqb_refl. rewrite orb_true_r. reflexivity.
    + exists f'. split; [subst fs'; apply in_or_app; right; left; reflexivity|auto].
  - exists fs, [f']. split; [exact E|]. split; [apply RF|]. split; [|split; [repeat constructor; auto|]].
    + destruct (existsb _ fs) eqn:X; [|cbn; rewrite I1; reflexivity]. exfalso.
      apply existsb_exists in X as (g & M & Q). assert (In g (with_id id fs)) by (apply filter_In; auto). rewrite W in H. destruct H.
    + exists f'. split; [subst fs'; apply in_or_app; right; left; reflexivity|auto].
Qed.
