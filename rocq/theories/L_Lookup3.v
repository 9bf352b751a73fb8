(** * Proofs: setting the text of a text frame. *)
From Coq Require Import Sorting.Permutation.
From Verif Require Import Base M_Charset M_Payload M_Frame M_TextId M_Lookup S_Charset S_Lookup L_Charset L_Lookup L_Lookup2.

Lemma edit_frames v a t st i c : reg v none st -> nthN (l_frames st) i = Some (a, c) ->
  exists l1 l2, frames_of st = l1 ++ c_frame c :: l2 /\
    frames_of (edit_at a (BText t) st) = l1 ++ mkFrame (f_id (c_frame c)) (f_flags (c_frame c)) (BText t) :: l2.
Proof.
  intros R X. destruct (nthN_split _ _ _ X) as (l1 & l2 & E & L). 
  exists (map (fun x => c_frame (snd x)) l1), (map (fun x => c_frame (snd x)) l2).
  pose proof (r_nodup v none st R) as ND. unfold frames_of, edit_at. cbn [set_frames l_frames]. rewrite E in *.
  rewrite !map_app. cbn [map fst snd]. rewrite map_app in ND. cbn [map fst] in ND.
  split; [reflexivity|]. rewrite N.eqb_refl. cbn [snd edit_body c_frame].
  apply NoDup_remove_2 in ND.
  assert (K : forall l, (forall x, In x l -> fst x <> a) ->
     map (fun x => c_frame (snd x)) (map (fun x : N * cframe => if fst x =? a then (fst x, edit_body (BText t) (snd x)) else x) l) =
     map (fun x => c_frame (snd x)) l).
  { intros l H. rewrite map_map. apply map_ext_in. intros x I. specialize (H x I). apply N.eqb_neq in H. rewrite H. reflexivity. }
  rewrite !K; [reflexivity| |]; intros x I Q; apply ND; subst a; apply in_or_app; [right|left]; apply in_map; exact I.
Qed.

(** What becomes of the tag, and what is found afterwards. *)
Lemma set_text_l v ic st c id s src bom rsp st' : history v ic st -> text_id id = true ->
  set_text_frame v ic c id s src bom rsp st = Ok st' ->
  history v ic st' /\ one_frame_changed id st st' /\
  exists t, find_text c st' id = Ok t /\
    (find_text c st id = Throw UnknownFrame /\ text_new v ic s src bom rsp = Ok t \/
     find_text c st id <> Throw UnknownFrame /\ text_set v ic s src bom rsp = Ok t).
Proof.
  intros H T E. pose proof (history_reg v ic st H) as R.
  assert (E' := E). unfold set_text_frame in E.
  destruct (pick c (values (l_texts st) id)) as [a|] eqn:P.
  - assert (IT := pick_In _ _ _ P). apply values_In in IT.
    destruct (r_texts v none st R id a IT) as (_ & i & d & u & X & _ & ID & W).
    rewrite (at_addr_spec st i a d (r_nodup v none st R) X) in E.
    apply bind_ok in E as (t & TS & E). apply Ok_inj in E. subst st'.
    assert (RE := reg_edit v a t st R).
    assert (X' : nthN (l_frames (edit_at a (BText t) st)) i = Some (a, edit_body (BText t) d)).
    { rewrite edit_at_nth, X, N.eqb_refl. reflexivity. }
    split; [|split].
    + eapply H_edit with (e := ESetText c id s src bom rsp); [exact H|exact T|exact E'|].
      intros b m n c1 c2 Y Z. rewrite edit_at_nth in Z. destruct (nthN (l_frames st) n) as [(q, d2)|] eqn:Q; [|discriminate Z].
      injection Z as -> _. eapply addr_unique; [apply R|exact Y|exact Q].
    + left. destruct (edit_frames v a t st i d R X) as (l1 & l2 & E1 & E2).
      exists l1, (c_frame d), (mkFrame (f_id (c_frame d)) (f_flags (c_frame d)) (BText t)), l2. repeat split; assumption.
    + exists t. split.
      * unfold find_text. change (l_texts (edit_at a (BText t) st)) with (l_texts st). rewrite P.
        rewrite (at_addr_spec _ i a _ (r_nodup v none _ RE) X'). reflexivity.
      * right. split; [|exact TS]. unfold find_text. rewrite P, (at_addr_spec st i a d (r_nodup v none st R) X), W. discriminate.
  - apply bind_ok in E as (t & TN & E). apply Ok_inj in E.
    set (cf := new_frame (mkFrame id no_flags (BText t))) in *.
    assert (R' : reg v none st') by (subst st'; apply reg_put_end; [exact R|]; split; [exact T|eexists; reflexivity]).
    assert (FR : l_frames st' = l_frames st ++ [(l_next st, cf)]).
    { subst st'. cbn [put_at add_lookups bump set_frames l_frames]. unfold size_l. apply insert_at_end. }
    split; [|split].
    + eapply H_edit with (e := ESetText c id s src bom rsp); [exact H|exact T|exact E'|].
      intros b m n c1 c2 Y Z. rewrite FR in Z.
      destruct (N.lt_ge_cases n (N.of_nat (length (l_frames st)))) as [L|L].
      * rewrite nthN_app1 in Z by exact L. eapply addr_unique; [apply R|exact Y|exact Z].
      * exfalso. unfold nthN in Z. rewrite nth_error_app2 in Z by lia. destruct (_ - _)%nat; cbn in Z; [|destruct n0; discriminate Z].
        injection Z as <- _. destruct (next_fresh v none st c1 R) as (F & _). apply F. eapply nthN_In. exact Y.
    + right. exists (c_frame cf). split; [|reflexivity]. unfold frames_of. rewrite FR, map_app. reflexivity.
    + assert (V0 : values (l_texts st) id = []).
      { destruct (values (l_texts st) id) as [|y r] eqn:V; [reflexivity|]. destruct (pick_some c (y :: r)) as (x & PX); [discriminate|]. congruence. }
      assert (V1 : values (l_texts st') id = [l_next st]).
      { subst st'. cbn [put_at add_lookups bump set_frames l_texts]. unfold values. rewrite filter_app, map_app.
        fold (values (l_texts st) id). rewrite V0. cbn [filter fst]. change (id_of cf) with id. rewrite beqb_refl. reflexivity. }
      exists t. split.
      * unfold find_text. rewrite V1. unfold pick. cbn [length]. change (N.of_nat 1) with 1. rewrite N.mod_1_r. cbn [nthN].
        assert (X : nthN (l_frames st') (N.of_nat (length (l_frames st))) = Some (l_next st, cf)) by (rewrite FR; apply nthN_app_at).
        unfold nthN at 1. cbn [N.to_nat nth_error].
        rewrite (at_addr_spec st' _ _ _ (r_nodup v none st' R') X). reflexivity.
      * left. split; [|exact TN]. unfold find_text. rewrite P. reflexivity.
Qed.

Lemma as_str_stored v ic t out src rsp s : t = mkText (match v with V24 => 3 | _ => 0 end) out -> out <> [] ->
  char_unit src = true -> ic (stored v) src rsp out = Some s -> no_bom s -> no_trailing s ->
  text_as_str v ic t src rsp None = Ok s.
Proof.
  intros -> NE CU IC NB NT. unfold text_as_str. cbn [tx_text]. destruct out as [|o out]; [congruence|].
  assert (TS : text_source v (mkText (match v with V24 => 3 | _ => 0 end) (o :: out)) = Ok (stored v)) by (destruct v; reflexivity).
  rewrite TS. cbn [bind]. apply to_string_l; assumption.
Qed.

Lemma set_readable_l v ic st c id s src rsp rsp' out : history v ic st -> text_id id = true ->
  s <> [] -> no_nul s -> no_bom s -> no_trailing s -> char_unit src = true ->
  ic src (stored v) rsp s = Some out -> out <> [] -> len out <= 4 * len s -> ic (stored v) src rsp' out = Some s ->
  exists st', set_text_frame v ic c id s src false rsp st = Ok st' /\
    history v ic st' /\ one_frame_changed id st st' /\ get_text v ic c st' id src rsp' = Ok s.
Proof.
  intros H T NE NN NB NT CU IC NO LO IC'.
  pose proof (to_bytes_short ic s src (stored v) false rsp out NN NE CU IC LO) as TB. cbn [app] in TB.
  set (t := mkText (match v with V24 => 3 | _ => 0 end) out).
  assert (TN : text_new v ic s src false rsp = Ok t).
  { unfold text_new, text_set24. destruct v; cbn [stored encshim encshim2] in *; rewrite TB; reflexivity. }
  assert (TS : text_set v ic s src false rsp = Ok t).
  { unfold text_set, text_set24. destruct v; cbn [stored encshim encshim2] in *; rewrite TB; reflexivity. }
  assert (G : exists st', set_text_frame v ic c id s src false rsp st = Ok st').
  { unfold set_text_frame. destruct (pick c (values (l_texts st) id)) as [a|] eqn:P.
    - pose proof (history_reg v ic st H) as R. apply pick_In, values_In in P.
      destruct (r_texts v none st R id a P) as (_ & i & d & u & X & _).
      rewrite (at_addr_spec st i a d (r_nodup v none st R) X), TS. cbn [bind]. eauto.
    - rewrite TN. cbn [bind]. eauto. }
  destruct G as (st' & E). exists st'. split; [exact E|].
  destruct (set_text_l v ic st c id s src false rsp st' H T E) as (H' & OC & t' & FT & K).
  split; [exact H'|]. split; [exact OC|]. unfold get_text. rewrite FT. cbn [bind].
  assert (t' = t) as -> by (destruct K as [(_ & K)|(_ & K)]; congruence).
  eapply as_str_stored; try reflexivity; eassumption.
Qed.

Lemma set_new_refuted_l v ic st c id s src rsp : v <> V24 -> no_nul s -> s <> [] -> char_unit src = true ->
  ic src E_ISO_8859_1 rsp s = None -> find_text c st id = Throw UnknownFrame ->
  set_text_frame v ic c id s src false rsp st = Throw IconvError.
Proof.
  intros NV NN NE CU IC FT. unfold find_text in FT. unfold set_text_frame.
  destruct (pick c (values (l_texts st) id)) as [a|] eqn:P.
  - destruct (at_addr a st) as [f|]; [|discriminate FT]. destruct (f_body (c_frame f)); discriminate FT.
  - assert (TB : to_bytes ic s src E_ISO_8859_1 false rsp = Throw IconvError).
    { unfold to_bytes. rewrite CU. cbn [negb].
      assert (CS : c_str s = s).
      { clear - NN. induction s as [|x r IH]; [reflexivity|]. cbn [c_str]. destruct (N.eqb_spec x 0) as [->|_].
        - destruct NN. left. reflexivity.
        - rewrite IH; [reflexivity|]. intros I. apply NN. right. exact I. }
      rewrite CS. destruct s as [|x r]; [congruence|]. rewrite IC. reflexivity. }
    unfold text_new. destruct v; try congruence; rewrite TB; reflexivity.
Qed.

Lemma set_trailing_refuted_l v ic st c id s' x src rsp rsp' st' out : let s := s' ++ [x] in
  history v ic st -> text_id id = true -> (x = 0 \/ x = 32) ->
  no_nul s -> char_unit src = true ->
  ic src (stored v) rsp s = Some out -> out <> [] -> len out <= 4 * len s -> ic (stored v) src rsp' out = Some s ->
  set_text_frame v ic c id s src false rsp st = Ok st' -> get_text v ic c st' id src rsp' <> Ok s.
Proof.
  intros s H T BX NN CU IC NO LO IC' E.
  assert (NE : s <> []) by (unfold s; destruct s'; discriminate).
  pose proof (to_bytes_short ic s src (stored v) false rsp out NN NE CU IC LO) as TB. cbn [app] in TB.
  set (t := mkText (match v with V24 => 3 | _ => 0 end) out).
  assert (TN : text_new v ic s src false rsp = Ok t).
  { unfold text_new, text_set24. destruct v; cbn [stored encshim encshim2] in *; rewrite TB; reflexivity. }
  assert (TS : text_set v ic s src false rsp = Ok t).
  { unfold text_set, text_set24. destruct v; cbn [stored encshim encshim2] in *; rewrite TB; reflexivity. }
  destruct (set_text_l v ic st c id s src false rsp st' H T E) as (H' & OC & t' & FT & K).
  unfold get_text. rewrite FT. cbn [bind].
  assert (t' = t) as -> by (destruct K as [(_ & K)|(_ & K)]; congruence).
  unfold text_as_str, t. cbn [tx_text]. destruct out as [|o out]; [congruence|].
  assert (TSR : text_source v (mkText (match v with V24 => 3 | _ => 0 end) (o :: out)) = Ok (stored v)) by (destruct v; reflexivity).
  rewrite TSR. cbn [bind]. eapply to_string_lost; try eassumption; discriminate.
Qed.

(** A check that an edit keeps frames in place. *)
Definition places_ok (st st' : ltag) : bool :=
  let l := map fst (l_frames st) in let l' := map fst (l_frames st') in
  forallb (fun i => forallb (fun j =>
    match nth_error l i, nth_error l' j with
    | Some a, Some b => implb (a =? b) (Nat.eqb i j)
    | _, _ => true
    end) (seq 0 (length l'))) (seq 0 (length l)).

Lemma places_ok_l st st' : places_ok st st' = true -> keeps_places st st'.
Proof.
  unfold places_ok. intros H a i j c c' X Y. rewrite forallb_forall in H. unfold nthN in X, Y.
  assert (LI : (N.to_nat i < length (map fst (l_frames st)))%nat) by (rewrite map_length; apply nth_error_Some; congruence).
  assert (LJ : (N.to_nat j < length (map fst (l_frames st')))%nat) by (rewrite map_length; apply nth_error_Some; congruence).
  specialize (H (N.to_nat i)). rewrite in_seq in H. specialize (H (conj (Nat.le_0_l _) LI)). rewrite forallb_forall in H.
  specialize (H (N.to_nat j)). rewrite in_seq in H. specialize (H (conj (Nat.le_0_l _) LJ)).
  rewrite !nth_error_map, X, Y in H. cbn [option_map fst] in H. rewrite N.eqb_refl in H. cbn [implb] in H.
  apply Nat.eqb_eq in H. lia.
Qed.
