(** * Lemmas: whole tags in JSON. *)
From Verif Require Import Base M_Charset M_Payload M_Cloud M_Csv S_Csv L_Csv S_Json M_Json L_Json S_JsonTag L_Json2 L_Json3.

(** ** ID3v2.3 tags with a refused frame. *)
Lemma well_printed_dec f : well_printed f \/ (misprinted f \/ (~ misprinted f /\ Exists (fun s => ~ printable s) (frame_texts f))).
Proof.
  unfold well_printed.
  assert (M : misprinted f \/ ~ misprinted f) by (destruct f; cbn; auto).
  destruct M as [M | M]; [auto|].
  destruct (Forall_Exists_dec printable printable_dec (frame_texts f)); auto.
Qed.

Lemma frame_run f : usual_frame f -> well_printed f -> run Out (c_str (json_frame V23 f)) = Some After.
Proof.
  intros U W. rewrite c_str_id by now apply frame_nul. rewrite frame_shown by assumption.
  destruct (shown_run _ (frame_wf f U W)) as (s & R & D). rewrite R. f_equal.
  destruct D as [-> | ->]; [|reflexivity]. exfalso. revert R.
  assert (exists m, frame_object f = JObj m) as (m & ->) by (destruct f; cbn; eauto).
  rewrite show_obj. rewrite app_comm_cons, run_app. destruct (run Out (123 :: _)) as [x|]; [|discriminate].
  destruct x; discriminate.
Qed.

Lemma frame_begin f : exists r, c_str (json_frame V23 f) = 123 :: 34 :: 105 :: r.
Proof. destruct f; cbn; eauto. Qed.

Lemma refused_next l : run In_ (44 :: join 44 (map (fun f => c_str (json_frame V23 f)) l) ++ B "]}") = None \/ l = [].
Proof.
  destruct l as [|f l]; [auto|]. left. destruct (frame_begin f) as (r & E).
  destruct l as [|g l]; cbn [map join]; rewrite E; reflexivity.
Qed.

Lemma refused_frames l : Forall usual_frame l -> Exists (fun f => ~ well_printed f) l ->
  run Out (join 44 (map (fun f => c_str (json_frame V23 f)) l) ++ B "]}") = None \/
  run Out (join 44 (map (fun f => c_str (json_frame V23 f)) l) ++ B "]}") = Some In_.
Proof.
  induction l as [|f l IH]; intros U E; [inversion E|]. inversion U as [|? ? Uf Ul]; subst.
  destruct (well_printed_dec f) as [W | W].
  - assert (El : Exists (fun f => ~ well_printed f) l) by (inversion E; subst; [contradiction | assumption]).
    specialize (IH Ul El). destruct l as [|g l]; [inversion El|]. cbn [map]. rewrite join_map_cons, <- app_assoc.
    rewrite (run_app_to _ _ _ _ (frame_run f Uf W)). exact IH.
  - assert (R : refused f).
    { destruct W as [W | (W1 & W2)]; [now apply misprinted_refused | now apply unprintable_refused]. }
    clear IH. destruct l as [|g l].
    + cbn [map join]. rewrite run_app. destruct R as [-> | ->]; [now left | right; reflexivity].
    + cbn [map]. rewrite join_map_cons, <- app_assoc, run_app. destruct R as [-> | ->]; [now left|]. left.
      destruct (refused_next (g :: l)) as [X | X]; [exact X | discriminate].
Qed.

Lemma tag23_head t : exists h, json_tag23 t = h ++ join 44 (map (fun f => c_str (json_frame V23 f)) (j_frames t)) ++ B "]}" /\
  run Out h = Some Out.
Proof.
  unfold json_tag23.
  exists (B "{""version"":""2.3"",""unsynchronised"":" ++ unsync_text (j_unsync t) ++
  B ",""flags"":" ++ number 10 (j_flags t) ++ B ",""size"":" ++ number 10 (j_size t) ++
  B ",""padding"":" ++ number 10 (j_padding t) ++ B ",""frames"":["). split; [now rewrite <- !app_assoc|].
  rewrite (run_app_to _ Out) by reflexivity. rewrite (run_app_to _ Tok) by (destruct (j_unsync t); reflexivity).
  rewrite (run_app_to _ Out) by reflexivity. rewrite (run_app_to _ _ _ _ (number_run _)).
  rewrite (run_app_to _ Out) by reflexivity. rewrite (run_app_to _ _ _ _ (number_run _)).
  rewrite (run_app_to _ Out) by reflexivity. rewrite (run_app_to _ _ _ _ (number_run _)).
  reflexivity.
Qed.

Lemma tag23_object t : usual_tag t -> Forall well_printed (j_frames t) ->
  json_of (json_tag23 t) = Some (tag_object (engaged (j_unsync t)) t).
Proof. intros U W. rewrite tag23_shown by assumption. now apply json_of_show, tag23_wf. Qed.

Lemma tag23_refused t : usual_tag t -> Exists (fun f => ~ well_printed f) (j_frames t) -> json_of (json_tag23 t) = None.
Proof.
  intros U E. apply not_json. destruct (tag23_head t) as (h & -> & R). rewrite (run_app_to _ _ _ _ R). now apply refused_frames.
Qed.

Lemma tag23_exact t : usual_tag t ->
  (Forall well_printed (j_frames t) -> json_of (json_tag23 t) = Some (tag_object (engaged (j_unsync t)) t)) /\
  (Exists (fun f => ~ well_printed f) (j_frames t) -> json_of (json_tag23 t) = None).
Proof. intros U. split; [now apply tag23_object | now apply tag23_refused]. Qed.

(** ** Tags of the other versions. *)
Lemma flags_run c z : 
  run Out (c :: B ",""size"":" ++ z) = None \/ run Out (c :: B ",""size"":" ++ z) = run Out z.
Proof.
  cbn [run]. destruct (step Out c) as [s|] eqn:E; [|now left].
  assert (s <> Esc) as Ns.
  { intros ->. unfold step in E. repeat match type of E with context [if ?b then _ else _] => destruct b end; discriminate. }
  destruct s; try (right; reflexivity); [left; reflexivity | contradiction].
Qed.

Lemma tag22_refused t : match json_tag22 t with Ok s => json_of s = None | _ => True end.
Proof.
  unfold json_tag22. destruct (j_frames t) as [|f l]; cbn [json_frames_open bind print_frame]; [|exact I].
  apply not_json. left.
  rewrite (run_app_to _ Out) by reflexivity. rewrite (run_app_to _ Tok) by (destruct (j_unsync t); reflexivity).
  rewrite (run_app_to _ Out) by reflexivity. cbn [app].
  destruct (flags_run (j_flags t) (number 10 (j_size t) ++ B ",""padding"":" ++ number 10 (j_padding t) ++ B """,frames:[""" ++ B "]}")) as [-> | ->];
    [reflexivity|].
  rewrite (run_app_to _ _ _ _ (number_run _)). rewrite (run_app_to _ Out) by reflexivity.
  rewrite (run_app_to _ _ _ _ (number_run _)). reflexivity.
Qed.

Lemma tag24_refused t : match json_tag24 t with Ok s => json_of s = None | _ => True end.
Proof.
  unfold json_tag24. destruct (j_frames t) as [|f l]; cbn [json_frames_open bind].
  2: { destruct (print_frame V24 f); exact I. }
  apply not_json. left.
  rewrite (run_app_to _ Out) by reflexivity. rewrite (run_app_to _ Tok) by (destruct (j_unsync t); reflexivity).
  rewrite (run_app_to _ Out) by reflexivity. cbn [app].
  match goal with |- run Out (j_flags t :: B ",""size"":" ++ ?z) = None => destruct (flags_run (j_flags t) z) as [-> | ->] end; [reflexivity|].
  rewrite (run_app_to _ _ _ _ (number_run _)). rewrite (run_app_to _ Out) by reflexivity.
  rewrite (run_app_to _ Tok) by (destruct (negb _); reflexivity). rewrite (run_app_to _ Out) by reflexivity.
  rewrite (run_app_to _ _ _ _ (number_run _)). reflexivity.
Qed.

(** ** ID3v1 tags. *)
Lemma value_det f g l x y : value f l = Some x -> value g l = Some y -> x = y.
Proof.
  intros Hx Hy. apply (proj1 (more_fuel f)) with (g := (f + g)%nat) in Hx; [|lia].
  apply (proj1 (more_fuel g)) with (g := (f + g)%nat) in Hy; [|lia]. congruence.
Qed.

Lemma member_step f k v l ms r : printable k -> wf v ->
  members f (34 :: jescape k ++ 34 :: 58 :: show v ++ 44 :: l) = Some (ms, r) ->
  exists g ms', members g l = Some (ms', r) /\ ms = (k, v) :: ms'.
Proof.
  intros Pk W H. destruct f as [|f]; [discriminate|].
  apply members_inv in H. destruct H as (r0 & k' & r1 & r2 & x & r3 & e & r4 & E0 & E1 & E2 & E3 & E4 & H).
  cbn in E0. injection E0 as <-. rewrite chars_escape in E1 by assumption. injection E1 as <- <-.
  cbn in E2. injection E2 as <-. destruct (value_show v W (44 :: l)) as (g & Eg); [reflexivity|].
  pose proof (value_det _ _ _ _ _ E3 Eg) as X. injection X as -> ->. cbn in E4. injection E4 as <- <-.
  destruct H as [(X & _) | (_ & ms' & E & ->)]; [discriminate|]. eauto.
Qed.

Lemma utf8_length u : (List.length (utf8 u) <= 3)%nat.
Proof. unfold utf8. repeat match goal with |- context [if ?b then _ else _] => destruct b end; cbn; lia. Qed.

(** [u ++ s = x ++ z ++ a] with [u] shorter than [z]: what is left of [s] before
    [a]. *)
Lemma leftover {A} (u s x z a : list A) : u ++ s = x ++ z ++ a -> (List.length u < List.length z)%nat ->
  exists y, s = y ++ a /\ y <> [].
Proof.
  intros E H. rewrite app_assoc in E. remember (x ++ z) as w. assert (Hw : (List.length u < List.length w)%nat) by (subst w; rewrite app_length; lia).
  clear Heqw H. revert w E Hw. induction u as [|c u IH]; intros w E Hw.
  - exists w. split; [exact E|]. intros ->. cbn in Hw. lia.
  - destruct w as [|d w]; [cbn in Hw; lia|]. cbn in E. injection E as _ E. apply (IH w E). cbn in Hw. lia.
Qed.

Lemma plain_of_chars tail : forall a x r, chars (a ++ 34 :: 44 :: 34 :: tail) = Some (x ++ a, r) -> x = [] /\ plain a.
Proof.
  induction a as [a IH] using (well_founded_induction (Wf_nat.well_founded_ltof _ (@List.length N))). unfold Wf_nat.ltof in IH.
  intros x r H. destruct a as [|c a].
  { cbn in H. injection H as H _. symmetry in H. apply app_eq_nil in H. split; [tauto | constructor]. }
  cbn [app] in H. apply chars_inv in H.
  destruct H as [(-> & E & _) | [(-> & e & l1 & El & H) | (N1 & N2 & L & s' & E & Es)]].
  - symmetry in E. now destruct x.
  - exfalso. destruct a as [|e' a].
    { cbn in El. injection El as <- <-. destruct H as [(X & _) | (_ & y & s' & _ & E & Es)]; [discriminate|].
      cbn in E. injection E as <- _. destruct x as [|? [|? [|? ?]]]; discriminate. }
    cbn [app] in El. injection El as <- <-.
    destruct H as [(-> & p & q & p' & q' & l2 & s' & u & El & E & Es & H1 & H2 & H3 & H4) | (_ & y & s' & _ & E & Es)].
    + assert (exists a3, a = p :: q :: p' :: q' :: a3 /\ l2 = a3 ++ 34 :: 44 :: 34 :: tail) as (a3 & -> & ->).
      { destruct a as [|a1 [|a2 [|a3 [|a4 a5]]]]; cbn in El; inversion El; subst; try (exfalso; now apply H1);
          try (exfalso; now apply H2); try (exfalso; now apply H3); try (exfalso; now apply H4).
        exists a5. auto. }
      destruct (leftover (utf8 u) s' x [92; 117; p; q; p'; q'] a3) as (z & -> & Nz);
        [symmetry; exact Es | pose proof (utf8_length u); cbn; lia |].
      apply IH in E; [|cbn; lia]. tauto.
    + destruct (leftover [y] s' x [92; e'] a) as (z & -> & Nz); [symmetry; exact Es | cbn; lia|].
      apply IH in E; [|cbn; lia]. tauto.
  - destruct x as [|y x].
    + cbn in Es. injection Es as <-. apply (IH a) with (x := []) in E; [|cbn; lia]. split; [reflexivity|].
      constructor; [unfold plain_char; auto | tauto].
    + cbn in Es. injection Es as _ Es. exfalso. assert (s' = (x ++ [c]) ++ a) as -> by (rewrite <- app_assoc; cbn; auto).
      apply IH in E; [|cbn; lia]. destruct E as (E & _). destruct x; discriminate.
Qed.

Lemma v1_head t : exists tail, json_v1 t =
  123 :: 34 :: jescape (B "version") ++ 34 :: 58 :: show (JStr (v1_version t)) ++ 44 ::
  34 :: jescape (B "album") ++ 34 :: 58 :: 34 :: j1_album t ++ 34 :: 44 :: 34 :: tail.
Proof.
  unfold json_v1, v1_version. cbn [show]. destruct (j1_1 t), (j1_enh t) as [g|]; eexists; flat; reflexivity.
Qed.

Lemma cons_eq {A} (a b : A) l m : a :: l = b :: m -> a = b /\ l = m.
Proof. intros H. now injection H. Qed.
Lemma some_pair_eq {A B} (a a' : A) (b b' : B) : Some (a, b) = Some (a', b') -> a = a' /\ b = b'.
Proof. intros H. now injection H. Qed.

Lemma v1_album t : json_of (json_v1 t) = Some (v1_object t) -> plain (j1_album t).
Proof.
  unfold json_of, next_value. destruct (value _ _) as [[v r]|] eqn:E; [|discriminate].
  destruct (skip_ws r); [|discriminate]. intros X. injection X as ->.
  destruct (v1_head t) as (tail & Et). rewrite Et in E at 2. revert E. generalize (2 * List.length (json_v1 t))%nat. intros f E.
  apply value_inv in E. destruct E as (c & r0 & E0 & H). cbn [skip_ws] in E0. change (is_ws 123) with false in E0. cbn iota in E0.
  apply cons_eq in E0; destruct E0 as (<- & <-).
  destruct H as [(_ & d & r1 & E1 & H) | [(X & _) | [(X & _) | (X & _)]]]; try discriminate; [|now exfalso; apply X].
  destruct H as [(_ & X & _) | (_ & ms & E & X)]; [discriminate|]. unfold v1_object in X. injection X as <-.
  apply member_step in E; [|apply plain_printable, key_plain; reflexivity | cbn [wf]; apply plain_printable, key_plain; unfold v1_version; destruct (j1_1 t), (j1_enh t); reflexivity].
  destruct E as (g & ms' & E & X). injection X as <-.
  destruct g as [|g]; [discriminate|]. apply members_inv in E.
  destruct E as (r0 & k' & r3 & r2 & x & r4 & e & r5 & F0 & F1 & F2 & F3 & F4 & H).
  cbn [skip_ws] in F0. change (is_ws 34) with false in F0. cbn iota in F0. apply cons_eq in F0; destruct F0 as (_ & <-).
  rewrite chars_escape in F1 by (apply plain_printable, key_plain; reflexivity). apply some_pair_eq in F1; destruct F1 as (<- & <-).
  cbn [skip_ws] in F2. change (is_ws 58) with false in F2. cbn iota in F2. apply cons_eq in F2; destruct F2 as (_ & <-).
  destruct g as [|g]; [discriminate|]. apply value_inv in F3. destruct F3 as (c & r0 & G0 & G).
  cbn [skip_ws] in G0. change (is_ws 34) with false in G0. cbn iota in G0. apply cons_eq in G0; destruct G0 as (<- & <-).
  destruct G as [(X & _) | [(X & _) | [(_ & s & Es & ->) | (_ & _ & X & _)]]]; try discriminate; [|now exfalso; apply X].
  assert (s = j1_album t) as ->.
  { destruct H as [(_ & X & _) | (_ & ms' & _ & X)]; injection X; intros; subst; auto. }
  apply (plain_of_chars tail (j1_album t) []) in Es. tauto.
Qed.

Lemma unprintable_none s rest : ~ printable s -> run In_ (jescape s ++ rest) = None.
Proof.
  induction s as [|c s IH]; intros H; [exfalso; apply H; constructor|].
  change (jescape (c :: s)) with (jescape_char c ++ jescape s). rewrite <- app_assoc.
  destruct (printable_char_dec c) as [D | D].
  - assert (P : printable [c]) by (constructor; [assumption | constructor]).
    pose proof (printable_run _ P) as R. cbn [jescape flat_map] in R. rewrite app_nil_r in R.
    rewrite (run_app_to _ _ _ _ R). apply IH. intros X. apply H. now constructor.
  - clear IH H. unfold printable_char in D. cbn in D. unfold jescape_char.
    repeat match goal with |- context [c =? ?b] => destruct (N.eqb_spec c b); [exfalso; lia|] end. cbn [orb app run]. unfold step.
    destruct (N.eqb_spec c 34); [lia|]. destruct (N.eqb_spec c 92); [lia|]. destruct (N.ltb_spec c 32); [reflexivity | lia].
Qed.

Lemma v1_printable t : plain (j1_album t) -> json_of (json_v1 t) <> None -> Forall printable (v1_texts t).
Proof.
  intros P J. assert (R : run Out (json_v1 t) <> None) by (intros X; apply J, not_json; now left). clear J.
  revert R. unfold json_v1.
  rewrite (run_app_to _ In_) by reflexivity. rewrite (run_app_to _ In_) by (destruct (j1_1 t); reflexivity).
  rewrite (run_app_to _ In_) by (destruct (j1_enh t); reflexivity). rewrite (run_app_to _ In_) by reflexivity.
  rewrite (run_app_to _ _ _ _ (plain_run _ P)). rewrite (run_app_to _ In_) by reflexivity.
  unfold v1_texts. cbn [app].
  destruct (printable_dec (j1_artist t)) as [P1 | P1]; [|rewrite unprintable_none by assumption; congruence].
  rewrite (run_app_to _ _ _ _ (printable_run _ P1)), (run_app_to _ In_) by reflexivity.
  destruct (printable_dec (j1_comment t)) as [P2 | P2]; [|rewrite unprintable_none by assumption; congruence].
  rewrite (run_app_to _ _ _ _ (printable_run _ P2)), (run_app_to _ Out) by reflexivity.
  rewrite (run_app_to _ _ _ _ (number_run _)), (run_app_to _ In_) by reflexivity.
  destruct (printable_dec (j1_title t)) as [P3 | P3]; [|rewrite unprintable_none by assumption; congruence].
  rewrite (run_app_to _ _ _ _ (printable_run _ P3)), (run_app_to _ In_) by reflexivity.
  destruct (printable_dec (j1_year t)) as [P4 | P4]; [|rewrite unprintable_none by assumption; congruence].
  rewrite (run_app_to _ _ _ _ (printable_run _ P4)), (run_app_to _ After) by reflexivity.
  intros R. repeat (constructor; [assumption|]). destruct (j1_enh t) as [g|]; [|constructor].
  constructor; [|constructor]. destruct (printable_dec g) as [P5 | P5]; [assumption|]. exfalso. apply R.
  destruct (j1_track t) as [n|].
  - rewrite <- !app_assoc. rewrite (run_app_to _ Out) by reflexivity. rewrite (run_app_to _ _ _ _ (number_run _)).
    rewrite (run_app_to _ In_) by reflexivity. now apply unprintable_none.
  - rewrite <- !app_assoc. cbn [app]. rewrite (run_app_to _ In_) by reflexivity. now apply unprintable_none.
Qed.

Lemma v1_exact t : json_of (json_v1 t) = Some (v1_object t) <-> plain (j1_album t) /\ Forall printable (v1_texts t).
Proof.
  split.
  - intros H. pose proof (v1_album t H) as P. split; [assumption|]. apply v1_printable; [assumption | congruence].
  - intros (P & F). rewrite v1_shown by assumption. now apply json_of_show, v1_wf.
Qed.

(** ** The whole dump. *)
Lemma stops_obj m rest : stops (show (JObj m) ++ rest).
Proof. reflexivity. Qed.
Lemma show_length v : wf v -> (0 < List.length (show v))%nat.
Proof. intros W. destruct (show_first v W) as (c & r & -> & _). cbn. lia. Qed.

Lemma stream_shown vs rest : Forall (fun v => wf v /\ exists m, v = JObj m) vs -> skip_ws rest = [] -> stops rest ->
  forall f, (List.length vs <= f)%nat -> stream f (flat_map show vs ++ rest) = Some vs.
Proof.
  induction vs as [|v vs IH]; intros W Hr Hs f Hf.
  - cbn [flat_map app]. destruct f; cbn [stream]; rewrite Hr; reflexivity.
  - inversion W as [|? ? (Wv & m & ->) Wr]; subst. destruct f as [|f]; [cbn in Hf; lia|]. cbn [flat_map]. rewrite <- app_assoc.
    cbn [stream]. rewrite skip_first by assumption.
    assert (St : stops (flat_map show vs ++ rest)).
    { destruct vs as [|v' vs]; [exact Hs|]. inversion Wr as [|? ? (_ & m' & ->) _]; subst. cbn [flat_map]. reflexivity. }
    rewrite next_value_show by assumption. rewrite IH; try assumption; [|cbn in Hf; lia]. reflexivity.
Qed.

Lemma json_stream_shown vs rest : Forall (fun v => wf v /\ exists m, v = JObj m) vs -> skip_ws rest = [] -> stops rest ->
  json_stream (flat_map show vs ++ rest) = Some vs.
Proof.
  intros W Hr Hs. unfold json_stream. apply stream_shown; try assumption. rewrite app_length.
  enough (List.length vs <= List.length (flat_map show vs))%nat by lia. clear Hr Hs.
  induction W as [|v vs (Wv & _) _ IH]; [reflexivity|]. cbn [flat_map List.length]. rewrite app_length. apply show_length in Wv. lia.
Qed.

Definition dump_objects (v2 : list jtag) (md5 : bytes) (v1 : option j1tag) : list json :=
  map (fun t => tag_object (engaged (j_unsync t)) t) v2 ++ [track_object (hex_digits md5)] ++
  (match v1 with Some t => [v1_object t] | None => [] end).

Lemma tags_shown v2 : Forall (fun t => usual_tag t /\ Forall well_printed (j_frames t)) v2 ->
  json_tags (map (fun t => (V23, t)) v2) = Ok (flat_map show (map (fun t => tag_object (engaged (j_unsync t)) t) v2)).
Proof.
  induction 1 as [|t l (U & W) _ IH]; [reflexivity|]. cbn [map json_tags json_tag bind flat_map]. rewrite IH. cbn [bind].
  now rewrite tag23_shown.
Qed.

Lemma dump_shown v2 md5 v1 :
  Forall (fun t => usual_tag t /\ Forall well_printed (j_frames t)) v2 ->
  (match v1 with Some t => plain (j1_album t) /\ Forall printable (v1_texts t) | None => True end) ->
  exists out, json_dump (map (fun t => (V23, t)) v2) md5 v1 = Ok out /\ json_stream out = Some (dump_objects v2 md5 v1).
Proof.
  intros F F1. unfold json_dump. rewrite tags_shown by assumption. cbn [bind]. eexists. split; [reflexivity|].
  rewrite track_shown.
  assert (E : flat_map show (map (fun t => tag_object (engaged (j_unsync t)) t) v2) ++
              show (track_object (hex_digits md5)) ++ (match v1 with Some t => json_v1 t | None => [] end) ++ [10] =
              flat_map show (dump_objects v2 md5 v1) ++ [10]).
  { unfold dump_objects. rewrite !flat_map_app. rewrite <- !app_assoc. f_equal. cbn [flat_map app]. rewrite <- !app_assoc. cbn [app]. f_equal.
    destruct v1 as [t|]; [|reflexivity]. destruct F1 as (P & _). rewrite v1_shown by assumption. cbn [flat_map]. now rewrite app_nil_r. }
  rewrite E. apply json_stream_shown; [|reflexivity | reflexivity].
  unfold dump_objects. rewrite !Forall_app. repeat split.
  - apply Forall_forall. intros x Hx. apply in_map_iff in Hx. destruct Hx as (t & <- & Ht). rewrite Forall_forall in F.
    destruct (F _ Ht). split; [now apply tag23_wf | eexists; reflexivity].
  - constructor; [|constructor]. split; [apply track_wf | eexists; reflexivity].
  - destruct v1 as [t|]; [|constructor]. constructor; [|constructor]. destruct F1. split; [now apply v1_wf | eexists; reflexivity].
Qed.

(** ** Digests, strings. *)
Lemma byte_digits x rest t : x < 256 -> from_hex rest = Some t -> from_hex (width2 (number 16 x) ++ rest) = Some (x :: t).
Proof.
  intros H R.
  assert (C : forallb (fun x => match width2 (number 16 x) with
                                | [a; b] => match hex_value a, hex_value b with Some a, Some b => 16 * a + b =? x | _, _ => false end
                                | _ => false end) (map N.of_nat (seq 0 256)) = true) by reflexivity.
  rewrite forallb_forall in C. assert (Hi : In x (map N.of_nat (seq 0 256))).
  { apply in_map_iff. exists (N.to_nat x). split; [apply N2Nat.id|]. apply in_seq. lia. }
  apply C in Hi. clear C H. destruct (width2 (number 16 x)) as [|a [|b [|? ?]]]; try discriminate. cbn [app from_hex].
  destruct (hex_value a) as [u|]; [|discriminate]. destruct (hex_value b) as [v|]; [|discriminate].
  apply N.eqb_eq in Hi. rewrite R, Hi. reflexivity.
Qed.
Lemma from_hex_digits md5 : Forall (fun x => x < 256) md5 -> from_hex (hex_digits md5) = Some md5.
Proof. induction 1 as [|x l Hx Hl IH]; [reflexivity|]. unfold hex_digits. cbn [flat_map]. now apply byte_digits. Qed.

Lemma track_exact md5 : Forall (fun x => x < 256) md5 ->
  exists d, json_of (json_track md5) = Some (track_object d) /\ from_hex d = Some md5.
Proof.
  intros H. exists (hex_digits md5). rewrite track_shown. split; [apply json_of_show, track_wf | now apply from_hex_digits].
Qed.

Lemma string_exact s : json_of (34 :: jescape s ++ [34]) = Some (JStr s) <-> printable s.
Proof.
  split.
  - intros H. destruct (printable_dec s) as [P | P]; [assumption|]. exfalso.
    assert (json_of (34 :: jescape s ++ [34]) = None); [|congruence]. apply not_json. left.
    rewrite (run_cons Out In_) by reflexivity. now apply unprintable_none.
  - intros P. exact (json_of_show (JStr s) P).
Qed.
Lemma number_exact n : json_of (number 10 n) = Some (JNum (number 10 n)) /\ as_decimal (number 10 n) = Some n.
Proof. split; [exact (json_of_show _ (jnum_wf n)) | apply as_decimal_number]. Qed.

Lemma frames24_throw t f : hd_error (j_frames t) = Some f ->
  (match f with FCloud _ _ _ _ | FPriv _ _ _ => True | _ => False end) -> json_tag24 t = Throw OutOfRange.
Proof.
  unfold json_tag24. destruct (j_frames t) as [|g l]; [discriminate|]. cbn [hd_error]. intros H M. injection H as ->.
  destruct f; try contradiction; reflexivity.
Qed.
Lemma frames22_open t : j_frames t <> [] -> json_tag22 t = UB OutOfBounds.
Proof. unfold json_tag22. destruct (j_frames t) as [|g l]; [easy|]. destruct g; reflexivity. Qed.
Lemma frames24_open t : j_frames t <> [] -> json_tag24 t = UB OutOfBounds \/ json_tag24 t = Throw OutOfRange.
Proof. unfold json_tag24. destruct (j_frames t) as [|g l]; [easy|]. destruct g; auto. Qed.
