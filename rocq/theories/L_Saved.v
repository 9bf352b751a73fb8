(** * Lemmas: saved tags read back. *)
From Verif Require Import Base M_Ints M_Unsync M_Stream M_Payload M_Frame M_Tag22 M_Tag23 M_Tag24 M_Read M_Fs M_Tagset
  S_Ints S_Stream S_Read S_Unsync S_Tag S_Tag22 S_Tag23 S_Tag24 S_Tagset S_Saved
  L_Ints L_Frame L_Tag23 L_Tag23b L_Tag23c L_Tag23d L_Tag23e L_Tag22 L_Tag24 L_Tag24b L_Read L_Fs L_Tagset L_Tagset2 L_Tagset3 L_Tagset4 L_Tagset5 L_Tagset6 L_Tagset8 L_Tagset7.

(** ** Caches stay coherent *)
Section Coh.
Variable P : cframe -> Prop.
Variable wire : frame -> outcome bytes.

Lemma needs_inv b l : (forall c c', In c l -> (forall b', b' = false \/ b' = b -> refresh wire b' c = Ok c' -> P c -> P c')) ->
  Forall P l -> forall v l1, frames_need_c wire b l = Ok (v, l1) -> Forall P l1.
Proof.
  induction l as [|c r IH]; intros HR HP v l1 H; [apply Ok_inj in H; injection H as _ <-; constructor|].
  apply Forall_cons_iff in HP as [Pc Pr].
  destruct r as [|d r].
  - cbn [frames_need_c] in H. apply bind_ok in H as (c' & Hc & H). apply Ok_inj in H. injection H as _ <-.
    constructor; [|constructor]. apply (HR c c' (or_introl eq_refl) b); auto.
  - rewrite frames_need_c_cons in H. apply bind_ok in H as (c' & Hc & H).
    assert (Pc' : P c') by (apply (HR c c' (or_introl eq_refl) false); auto).
    destruct (negb _).
    + apply Ok_inj in H. injection H as _ <-. now constructor.
    + apply bind_ok in H as ([v' r'] & Hr & H). apply Ok_inj in H. injection H as _ <-.
      constructor; [exact Pc'|]. apply (IH (fun x x' Hx => HR x x' (or_intror Hx)) Pr _ _ Hr).
Qed.
Lemma all_need_inv l : (forall c c', In c l -> refresh wire false c = Ok c' -> P c -> P c') ->
  Forall P l -> forall v l1, all_need_c wire l = Ok (v, l1) -> Forall P l1.
Proof.
  induction l as [|c r IH]; intros HR HP v l1 H; [apply Ok_inj in H; injection H as _ <-; constructor|].
  apply Forall_cons_iff in HP as [Pc Pr].
  cbn [all_need_c] in H. apply bind_ok in H as (c' & Hc & H).
  assert (Pc' : P c') by (apply (HR c c' (or_introl eq_refl)); auto).
  destruct (_ =? 0).
  - apply Ok_inj in H. injection H as _ <-. now constructor.
  - apply bind_ok in H as ([v' r'] & Hr & H). apply Ok_inj in H. injection H as _ <-.
    constructor; [exact Pc'|]. apply (IH (fun x x' Hx => HR x x' (or_intror Hx)) Pr _ _ Hr).
Qed.
End Coh.

Lemma refresh22_co c c' : refresh wire22 false c = Ok c' -> coherent22 c -> coherent22 c'.
Proof.
  unfold refresh, coherent22. destruct (c_dirty c) eqn:Ed.
  - intros H _. apply bind_ok in H as (ce & Hw & H). apply Ok_inj in H. subst c'. cbn. auto.
  - intros H. apply Ok_inj in H. subst c'. rewrite Ed. auto.
Qed.

(** Well-formedness of a frame, from the frame and the coherence of its cache. *)
Lemma wf_by_frames (F : frame -> Prop) (C : cframe -> Prop) l l' : map c_frame l' = map c_frame l ->
  Forall (fun c => F (c_frame c) /\ C c) l -> Forall C l' -> Forall (fun c => F (c_frame c) /\ C c) l'.
Proof.
  intros HE H HC.
  assert (HF : Forall F (map c_frame l')).
  { rewrite HE. apply Forall_forall. intros x Hx. apply in_map_iff in Hx as (c & <- & Hc).
    rewrite Forall_forall in H. now apply H. }
  clear - HF HC. induction l' as [|c r IH]; [constructor|]. cbn in HF. apply Forall_cons_iff in HF as [F1 F2].
  apply Forall_cons_iff in HC as [C1 C2]. constructor; auto.
Qed.

(** The coherence of the caches of a tag's frames. *)
Definition all_coherent (z : zlib) (t : anytag) : Prop :=
  match t with
  | A22 t => Forall coherent22 (t2_frames t)
  | A23 t => Forall (coherent (wire23 z)) (t3_frames t)
  | A24 t => Forall (coherent (wire24 z)) (t4_frames t)
  end.

Lemma storable_coherent z m t : storable z m t -> all_coherent z t.
Proof.
  destruct t as [t|t|t]; cbn; intros H.
  - destruct H as [H _]. eapply Forall_impl; [|exact H]. cbn. tauto.
  - destruct H as ([H _] & _). eapply Forall_impl; [|exact H]. cbn. tauto.
  - destruct H as (H & _). eapply Forall_impl; [|exact H]. cbn. tauto.
Qed.
Lemma storable_sound z m t : storable z m t -> sound_tag t.
Proof. destruct t as [t|t|t]; cbn; tauto. Qed.

Lemma storable_same z m t t1 : storable z m t -> same_but_caches t t1 -> all_coherent z t1 -> storable z m t1.
Proof.
  destruct t as [t|t|t], t1 as [t1|t1|t1]; cbn [same_but_caches]; try tauto; cbn [storable all_coherent].
  - intros [H1 H2] (E1 & E2 & E3 & E4) C. rewrite E1, E4. split; [|exact H2].
    unfold wf_tag22 in *.
    assert (X : Forall (fun c => (wf_frame V22 (c_frame c) /\ plain_flags (c_frame c)) /\ coherent22 c) (t2_frames t1)).
    { apply (wf_by_frames (fun f => wf_frame V22 f /\ plain_flags f) coherent22 (t2_frames t)); auto.
      eapply Forall_impl; [|exact H1]. cbn. tauto. }
    eapply Forall_impl; [|exact X]. cbn. tauto.
  - intros ([H1 H2] & H3 & H4 & H5) (E1 & E2 & E3 & E4 & E5 & EX & E6) C. rewrite E1, E6. split; [|auto].
    split; [|clear - H2 E5 EX; destruct (t3_ext t) as [x|], (t3_ext t1) as [y|]; cbn [same_ext ext_plain] in *; try tauto;
             destruct EX as [<- _]; tauto].
    assert (X : Forall (fun c => (wf_frame V23 (c_frame c) /\ status_only (c_frame c)) /\ coherent (wire23 z) c) (t3_frames t1)).
    { apply (wf_by_frames (fun f => wf_frame V23 f /\ status_only f) (coherent (wire23 z)) (t3_frames t)); auto.
      eapply Forall_impl; [|exact H1]. cbn. tauto. }
    eapply Forall_impl; [|exact X]. cbn. tauto.
  - intros (H1 & H2 & H3 & H4 & H5 & H6) (E1 & E2 & E3 & E4 & E5 & E6) C. rewrite E3, E4, E5, E6. split; [|auto].
    unfold wf_tag24 in *.
    assert (X : Forall (fun c => (wf_frame V24 (c_frame c) /\ status_only24 (c_frame c)) /\ coherent (wire24 z) c) (t4_frames t1)).
    { apply (wf_by_frames (fun f => wf_frame V24 f /\ status_only24 f) (coherent (wire24 z)) (t4_frames t)); auto.
      eapply Forall_impl; [|exact H1]. cbn. tauto. }
    eapply Forall_impl; [|exact X]. cbn. tauto.
Qed.

Lemma needs_coherent z t u t1 : sound_tag t -> all_coherent z t -> any_needs z t = Ok (u, t1) -> all_coherent z t1.
Proof.
  destruct t as [t|t|t]; cbn [sound_tag any_needs all_coherent]; intros Hs HC H.
  - apply bind_ok in H as ([v fs] & Hf & H). apply Ok_inj in H. injection H as _ <-. cbn.
    eapply (needs_inv coherent22 wire22 false); [|exact HC|exact Hf].
    intros c c' _ b' [-> | ->]; apply refresh22_co.
  - rewrite prep_plain in H by exact Hs. cbn [bind t3_ext t3_pad t3_frames t3_unsync t3_exp] in H.
    destruct (match fresh_ext (t3_ext t) with Some x => negb (x_syncs x =? 0) | None => false end);
      [apply Ok_inj in H; injection H as _ <-; exact HC|].
    apply bind_ok in H as ([v fs] & Hf & H). apply Ok_inj in H. injection H as _ <-. cbn.
    eapply (needs_inv (coherent (wire23 z)) (wire23 z)); [|exact HC|exact Hf].
    intros c c' _ b' _ HR. now apply (refresh_spec (wire23 z) b' c c').
  - apply bind_ok in H as ([v fs] & Hf & H). apply Ok_inj in H. injection H as _ <-. cbn.
    eapply (all_need_inv (coherent (wire24 z)) (wire24 z)); [|exact HC|exact Hf].
    intros c c' _ HR. now apply (refresh_spec (wire24 z) false c c').
Qed.

Lemma map_refresh22_co l : forall l', map_refresh wire22 l = Ok l' -> Forall coherent22 l -> Forall coherent22 l'.
Proof. exact (map_refresh_coherent22 l). Qed.

Lemma size_coherent z t u n t1 : all_coherent z t -> any_size z t u = Ok (n, t1) -> all_coherent z t1.
Proof.
  destruct t as [t|t|t]; cbn [any_size all_coherent]; intros HC H;
    apply bind_ok in H as ([n' t'] & Hz & H); apply Ok_inj in H; injection H as <- <-.
  - unfold size22 in Hz. apply bind_ok in Hz as (fs & Hf & Hz). apply Ok_inj in Hz. injection Hz as <- <-.
    exact (map_refresh22_co (t2_frames t) fs Hf HC).
  - apply size23_inv in Hz as (_ & _ & _ & (_ & _ & R) & _). exact (R HC).
  - apply size24_inv in Hz as (_ & _ & _ & _ & _ & (_ & _ & R) & _). exact (R HC).
Qed.

Lemma probe_storable z m t n t1 : storable z m t -> probe z m t = Ok (n, t1) -> storable z m t1.
Proof.
  intros HS H. pose proof (storable_sound _ _ _ HS) as Hs. pose proof (storable_coherent _ _ _ HS) as HC.
  destruct (probe_settled z m t n t1 Hs H) as (u & _ & Hsame & t0 & Hc & H0 & Hz).
  apply (storable_same z m t t1 HS Hsame).
  apply (size_coherent z t0 u n t1); [|exact Hz].
  destruct m; cbn in Hc; [apply Ok_inj in Hc; injection Hc as _ <-; exact HC|apply Ok_inj in Hc; injection Hc as _ <-; exact HC|].
  now apply (needs_coherent z t u).
Qed.

Lemma emit_probe z m t b t' : emit z m t = Ok (b, t') -> exists n t1, probe z m t = Ok (n, t1).
Proof.
  unfold emit, probe. intros H. apply bind_ok in H as ([u t0] & Hu & H). rewrite Hu. cbn [bind].
  destruct t0 as [t0|t0|t0]; cbn [any_write any_size] in *; apply bind_ok in H as ([cb t1] & Hz & _); rewrite Hz; cbn [bind]; eauto.
Qed.

(** ** One tag *)
Lemma write_any22 z t u cb t1 b t' : size22 t u = Ok (cb, t1) -> wrap64 cb = cb -> any_write z (A22 t) u = Ok (b, t') ->
  exists t2, write22 t u = Ok (b, t2).
Proof.
  intros Hz Hw H. cbn [any_write] in H. unfold write22. rewrite Hz in *. cbn [bind] in *. rewrite Hw in H.
  apply bind_ok in H as (h & Hh & H). rewrite Hh. cbn [bind]. apply bind_ok in H as (fs & Hf & H). rewrite Hf. cbn [bind].
  apply Ok_inj in H. injection H as <- <-. eauto.
Qed.
Lemma write_any23 z t u cb t1 b t' : size23 z t u = Ok (cb, t1) -> wrap64 cb = cb -> any_write z (A23 t) u = Ok (b, t') ->
  exists t2, write23 z t u = Ok (b, t2) /\ t' = A23 t2.
Proof.
  intros Hz Hw H. cbn [any_write] in H. unfold write23. rewrite Hz in *. cbn [bind] in *. rewrite Hw in H.
  apply bind_ok in H as (h & Hh & H). rewrite Hh. cbn [bind]. apply bind_ok in H as (t2 & Hp & H). rewrite Hp. cbn [bind].
  apply bind_ok in H as (fs & Hf & H). rewrite Hf. cbn [bind].
  apply Ok_inj in H. injection H as <- <-. eauto.
Qed.
Lemma write_any24 z t u cb t1 b t' : size24 z t u = Ok (cb, t1) -> wrap64 cb = cb -> any_write z (A24 t) u = Ok (b, t') ->
  exists t2, write24 z t u = Ok (b, t2).
Proof.
  intros Hz Hw H. cbn [any_write] in H. unfold write24. rewrite Hz in *. cbn [bind] in *. rewrite Hw in H.
  apply bind_ok in H as (h & Hh & H). rewrite Hh. cbn [bind]. apply bind_ok in H as (x & Hx & H). rewrite Hx. cbn [bind].
  apply bind_ok in H as (fs & Hf & H). rewrite Hf. cbn [bind]. apply bind_ok in H as (ft & Hft & H). rewrite Hft. cbn [bind].
  apply Ok_inj in H. injection H as <- <-. eauto.
Qed.

Lemma storable_mult z m t : storable z m t -> (mult t - 1) * any_padding t = 0.
Proof. destruct t as [t|t|t]; cbn; [lia|lia|]. intros (_ & _ & _ & _ & _ & ->). lia. Qed.

Lemma wrap_small n : n < 2 ^ 64 -> wrap64 n = n.
Proof. intros H. unfold wrap64. now apply N.mod_small. Qed.

Lemma written_back z passes m t b t' pre post e : crc_range z -> (0 < passes)%nat -> storable z m t -> Settled z m t ->
  emit z m t = Ok (b, t') -> full_size z m t < 2 ^ 64 ->
  exists t'', maybe_read_id3v2 z passes (mkIs (pre ++ b ++ post) (len pre) e 0) =
      (Ok (Some t''), mkIs (pre ++ b ++ post) (len pre + len b) e 0) /\ same_tag t t'' /\ same_padding t t'' /\ marked m t t''.
Proof.
  intros Hz Hp HS HT HE HL.
  pose proof (Settled_compute z m t HT) as Hc. unfold emit in HE. rewrite Hc in HE. cbn [bind] in HE.
  pose proof (size_clean z t (u_of z m t) (proj1 HT) (proj1 (proj2 HT))) as Hsz. fold (full_size z m t) in Hsz.
  pose proof (wrap_small _ HL) as HW.
  assert (HN : m = Never -> u_of z m t = false) by (intros ->; reflexivity).
  assert (HA : m = Always -> u_of z m t = true) by (intros ->; reflexivity).
  set (u := u_of z m t) in *. clearbody u.
  unfold maybe_read_id3v2, sbind, sret.
  destruct t as [t|t|t]; cbn [any_size] in Hsz; apply bind_ok in Hsz as ([cb t1] & Hs & Hq); apply Ok_inj in Hq; injection Hq as Hcb Ht1.
  - rewrite <- Hcb in HW. destruct (write_any22 z t u cb t1 b t' Hs HW HE) as (t2 & HWr). destruct HS as [S1 S2].
    destruct (roundtrip22 t u b t2 pre post e S1 HWr) as (info & t'' & R1 & R2 & R3 & R4 & R5 & R6).
    { destruct S2 as [[S2 S3]|S2]; [left; auto|right; exact S2]. }
    exists (A22 t''). rewrite R1. unfold read_version. rewrite R2. change (2 =? 2) with true. cbv iota. unfold sbind, sret. rewrite R3.
    split; [reflexivity|]. split; [cbn; auto|]. split; [|exact Logic.I]. unfold same_padding. cbn. tauto.
  - rewrite <- Hcb in HW. destruct (write_any23 z t u cb t1 b t' Hs HW HE) as (t2 & HWr & _). destruct HS as (S1 & S2 & S3 & S4).
    assert (Hx : t3_ext t2 = t3_ext t).
    { unfold write23 in HWr. rewrite Hs in HWr. cbn [bind] in HWr. apply bind_ok in HWr as (h & _ & HWr).
      rewrite Ht1 in HWr. rewrite prep_plain in HWr by exact S3. cbn [bind] in HWr. apply bind_ok in HWr as (fs & _ & HWr).
      apply Ok_inj in HWr. injection HWr as _ <-. cbn [t3_ext]. apply fresh_ext_fresh. exact (proj2 (proj1 (proj2 HT))). }
    destruct (roundtrip23_plain z passes t u b t2 pre post e Hz Hp S1 S2) as (info & t'' & R1 & R2 & R3 & R4 & R5 & R6 & R7 & R8);
      [auto|exact HWr|rewrite Hx; clear - S3; destruct (t3_ext t); cbn [ext_plain] in S3; [apply S3|exact Logic.I]|].
    exists (A23 t''). rewrite R1. unfold read_version. rewrite R2. change (2 =? 3) with false. change (3 =? 3) with true. cbv iota.
    unfold sbind, sret. rewrite R3. split; [reflexivity|]. rewrite Hx in R7. split.
    + cbn [same_tag]. split; [exact R4|]. split; [exact R6|]. clear - R7. destruct (t3_ext t), (t3_ext t''); cbn in *; try tauto.
      now destruct R7 as [-> ->].
    + split; [unfold same_padding; cbn; rewrite R5; destruct R8 as [R8|[-> R8]]; auto|].
      cbn. rewrite R5. split; intros Em; [rewrite (HN Em)|rewrite (HA Em)]; reflexivity.
  - rewrite <- Hcb in HW. destruct (write_any24 z t u cb t1 b t' Hs HW HE) as (t2 & HWr). destruct HS as (S1 & S2 & S3 & S4 & S5 & S6).
    destruct (roundtrip24_plain z passes t u b t2 pre post e Hp S1 S2 HWr) as (info & t'' & R1 & R2 & R3 & R4 & R5 & R6 & R7 & R8 & R9); auto.
    { destruct S3 as [S3|S3]; auto. }
    exists (A24 t''). rewrite R1. unfold read_version. rewrite R2. change (2 =? 4) with false. change (3 =? 4) with false. change (4 =? 4) with true. cbv iota.
    unfold sbind, sret. rewrite R3, S6, N.add_0_r. split; [reflexivity|]. split.
    + cbn. rewrite R8, S5, R7. auto.
    + split; [unfold same_padding; cbn; rewrite R9, S6; auto|exact R5].
Qed.

(** ** All tags *)
Lemma emit_all_cons z m t r w o : emit_all z m (t :: r) = (w, Ok o) ->
  exists b t1 w1 o1, emit z m t = Ok (b, t1) /\ emit_all z m r = (w1, Ok o1) /\ w = b ++ w1 /\ o = t1 :: o1.
Proof.
  cbn [emit_all]. destruct (emit z m t) as [[b t1]| | |]; try discriminate.
  destruct (emit_all z m r) as [w1 o1]. intros H. injection H as <- H.
  apply bind_ok in H as (o2 & -> & H). apply Ok_inj in H. subst o. eauto 8.
Qed.

Lemma emit_back z m t b t1 : storable z m t -> emit z m t = Ok (b, t1) -> len b < 2 ^ 64 ->
  exists t0, storable z m t0 /\ Settled z m t0 /\ emit z m t0 = Ok (b, t1) /\ full_size z m t0 < 2 ^ 64 /\
    same_but_caches t t0 /\ 10 <= len b.
Proof.
  intros HS HE HL. destruct (emit_probe z m t b t1 HE) as (n & t0 & Hp). exists t0.
  destruct (probe_Settled z m t n t0 (storable_sound _ _ _ HS) Hp) as (P1 & P2 & P3 & P4).
  pose proof (probe_storable z m t n t0 HS Hp) as HS0. rewrite P4 in HE.
  destruct (emit_settled z m t0 P1) as [E1 E2]. cbv zeta in E1, E2.
  assert (HF : full_size z m t0 + 10 = len b).
  { destruct (N.lt_ge_cases (wrap64 (full_size z m t0)) (2 ^ 28)) as [Hlt|Hge].
    - destruct (E1 Hlt) as (h & rest & X1 & (v & f & X2) & X3 & _). rewrite X1 in HE. apply Ok_inj in HE. injection HE as <- _.
      rewrite len_app, (header_len _ _ _ _ _ X2), <- X3, (storable_mult z m t0 HS0). lia.
    - destruct (E2 Hge) as (x & X). rewrite X in HE. discriminate. }
  split; [exact HS0|]. split; [exact P1|]. split; [exact HE|]. split; [lia|]. split; [exact P3|lia].
Qed.

Lemma same_tag_trans t t0 t'' : same_but_caches t t0 -> same_tag t0 t'' -> same_tag t t''.
Proof.
  destruct t, t0, t''; cbn [same_but_caches same_tag]; try tauto; intros H1 H2; repeat match goal with H : _ /\ _ |- _ => destruct H end;
    repeat split; try congruence. eauto using same_ext_trans.
Qed.
Lemma same_padding_trans t t0 t'' : same_but_caches t t0 -> same_padding t0 t'' -> same_padding t t''.
Proof. intros H. unfold same_padding. now rewrite (pad_same _ _ H). Qed.

Lemma marked_trans m t t' t'' : same_but_caches t t' -> marked m t' t'' -> marked m t t''.
Proof.
  destruct t, t', t''; cbn; try tauto. intros (-> & _). tauto.
Qed.

Lemma saved_loop z passes m e rest : crc_range z -> (0 < passes)%nat ->
  (forall v r f sz, ~ id3v2_header_at rest 0 v r f sz) ->
  forall ts w o pre fuel, Forall (storable z m) ts -> emit_all z m ts = (w, Ok o) -> len w < 2 ^ 64 -> (length ts < fuel)%nat ->
  exists ts'' s', read_all_loop z passes fuel (mkIs (pre ++ w ++ rest) (len pre) e 0) = (Ok ts'', s') /\
    Forall2 same_tag ts ts'' /\ Forall2 same_padding ts ts'' /\ Forall2 (marked m) ts ts''.
Proof.
  intros Hz Hp Hrest. induction ts as [|t r IH]; intros w o pre fuel HS HE HL HF; destruct fuel as [|fuel]; try (cbn in HF; lia).
  - cbn in HE. injection HE as <- <-. cbn [read_all_loop]. unfold sbind, maybe_read_id3v2, sbind, sret.
    rewrite looking_at_nothing.
    + eexists [], _. split; [reflexivity|]. split; [|split]; constructor.
    + intros v rv f sz H. apply (Hrest v rv f sz). apply (L_Tagset7.header_shift pre). exact H.
  - apply Forall_cons_iff in HS as [S1 S2]. apply emit_all_cons in HE as (b & t1 & w1 & o1 & E1 & E2 & -> & ->).
    rewrite len_app in HL.
    destruct (emit_back z m t b t1 S1 E1) as (t0 & T1 & T2 & T3 & T4 & T5 & T6); [lia|].
    destruct (written_back z passes m t0 b t1 pre (w1 ++ rest) e Hz Hp T1 T2 T3 T4) as (t'' & R1 & R2 & R3 & R4).
    destruct (IH w1 o1 (pre ++ b) fuel S2 E2) as (ts'' & s' & I1 & I2 & I3 & I4); [lia|cbn in HF; lia|].
    exists (t'' :: ts''), s'. rewrite <- app_assoc. cbn [read_all_loop]. unfold sbind. rewrite R1.
    rewrite <- app_assoc, len_app in I1. rewrite I1. split; [reflexivity|].
    split; [|split]; constructor; auto; [now apply (same_tag_trans t t0)|now apply (same_padding_trans t t0)|now apply (marked_trans m t t0)].
Qed.

Lemma emit_all_long z m ts : forall w o, Forall (storable z m) ts -> emit_all z m ts = (w, Ok o) -> len w < 2 ^ 64 -> (length ts <= length w)%nat.
Proof.
  induction ts as [|t r IH]; intros w o HS HE HL; [apply Nat.le_0_l|].
  apply Forall_cons_iff in HS as [S1 S2]. apply emit_all_cons in HE as (b & t1 & w1 & o1 & E1 & E2 & -> & ->).
  rewrite len_app in HL. specialize (IH w1 o1 S2 E2).
  destruct (emit_back z m t b t1 S1 E1) as (t0 & _ & _ & _ & _ & _ & T6); [lia|]. rewrite app_length. cbn [length].
  unfold len in *. lia.
Qed.

Lemma saved_back z passes m ts w o rest e : crc_range z -> (0 < passes)%nat -> Forall (storable z m) ts ->
  emit_all z m ts = (w, Ok o) -> len w < 2 ^ 64 -> (forall v r f sz, ~ id3v2_header_at rest 0 v r f sz) ->
  exists ts'' s', read_all_id3v2 z passes (mkIs (w ++ rest) 0 e 0) = (Ok ts'', s') /\
    Forall2 same_tag ts ts'' /\ Forall2 same_padding ts ts'' /\ Forall2 (marked m) ts ts''.
Proof.
  intros Hz Hp HS HE HL Hrest. unfold read_all_id3v2. cbn [s_data].
  apply (saved_loop z passes m e rest Hz Hp Hrest ts w o [] _ HS HE HL).
  rewrite app_length. pose proof (emit_all_long z m ts w o HS HE HL). lia.
Qed.

(** ** Files *)
Lemma tags_none data : forall l pos, tags_from data pos l -> forall v r f sz, ~ id3v2_header_at data (tags_end pos l) v r f sz.
Proof. induction l as [|h l IH]; intros pos H; [exact H|]. destruct H as (_ & _ & H). cbn [tags_end]. now apply IH. Qed.

Lemma rest_none data l : tags_from data 0 l -> forall v r f sz, ~ id3v2_header_at (dropN (tags_end 0 l) data) 0 v r f sz.
Proof.
  intros H v r f sz HH. apply (tags_none data l 0 H v r f sz). unfold id3v2_header_at in *.
  assert (E : dropN 0 (dropN (tags_end 0 l) data) = dropN (tags_end 0 l) data) by apply dropN_0.
  now rewrite E in HH.
Qed.

Lemma copy_back z passes e p d n ts m keep w o fs data l r fs' x : let k := resolve (e_cwd e) p in
  crc_range z -> (0 < passes)%nat ->
  p <> [] -> hd 0 (e_cwd e) = 47 -> dir_path d -> plain_name n -> absolute (e_cwd e) p = spelled d n ->
  find_node k fs = Some (File data) -> tags_from data 0 l -> emit_all z m ts = (w, o) -> len w < 2 ^ 64 ->
  ~ In 46 (last (e_tmp e) []) -> e_tmp e <> k -> Forall (storable z m) ts ->
  snd (replace_tagset_copy z e p ts m keep fs) = (Ok r, fs') ->
  exists data' ts'' s', find_node k fs' = Some (File data') /\
    read_all_id3v2 z passes (mkIs data' 0 x 0) = (Ok ts'', s') /\ Forall2 same_tag ts ts'' /\ Forall2 same_padding ts ts'' /\ Forall2 (marked m) ts ts''.
Proof.
  intros k Hz Hps Hp Hc Hd Hn HA Hk Hl He HL Ht Htk HS H.
  pose proof (copy_any z e p d n ts m keep w o fs data l Hp Hc Hd Hn HA Hk Hl He Ht Htk) as C. cbv zeta in C.
  destruct (replace_tagset_copy z e p ts m keep fs) as [st [r0 fs0]]. cbn [snd] in H. injection H as -> ->.
  destruct C as (_ & [_ C1] & C2 & C3). subst o.
  destruct (saved_back z passes m ts w r (dropN (tags_end 0 l) data) x Hz Hps HS He HL (rest_none data l Hl)) as (ts'' & s' & R).
  exists (w ++ dropN (tags_end 0 l) data), ts'', s'. split; [exact C3|exact R].
Qed.

(** A save: the tags written are those whose sizes were taken, but for paddings. *)
Lemma repadded_refl l : Forall2 repadded l l.
Proof. induction l; constructor; [reflexivity|assumption]. Qed.

Lemma save_written z e p d nm ts m strat keep fs data l st r fs' n pd ts1 : let k := resolve (e_cwd e) p in
  p <> [] -> hd 0 (e_cwd e) = 47 -> dir_path d -> plain_name nm -> absolute (e_cwd e) p = spelled d nm ->
  find_node k fs = Some (File data) -> tags_from data 0 l -> tags_end 0 l < 2 ^ 28 -> tags_end 0 l <= len data ->
  Forall sound_tag ts -> Forall (fun t => any_padding t < 2 ^ 62) ts -> sizes z m ts = Ok (n, pd, ts1) -> n < 2 ^ 28 ->
  ~ wraps ts (tags_end 0 l) n -> e_tmp e <> k -> ~ In 46 (last (e_tmp e) []) ->
  maybe_emplace_tagset z e p ts m strat keep fs = (st, (Ok r, fs')) -> v24_padding r = 0 ->
  Forall2 repadded ts1 r /\
  exists w, emit_all z m r = (w, Ok r) /\ len w < 2 ^ 64 /\ find_node k fs' = Some (File (w ++ dropN (tags_end 0 l) data)).
Proof.
  intros k Hp Hc Hd Hnm HA Hk Hl HT HL HS HP Hz Hn Hw Htk Hdot H H0. set (T := tags_end 0 l) in *.
  destruct (sv_facts z m ts ts1 n pd HS HP Hz) as (S1 & En & Ep & Hsame & HS1 & _ & Hpd).
  assert (Hw1 : ~ wraps ts1 T n) by (intros HW; apply Hw; now apply (wraps_same ts ts1)).
  assert (N64 : n < 2 ^ 64) by (apply N.lt_trans with (2 ^ 28); [exact Hn|reflexivity]).
  assert (HEmp : forall ts2, Forall2 repadded ts1 ts2 -> Forall (Settled z m) ts2 -> Forall sound_tag ts2 -> total_size z m ts2 < 2 ^ 64 ->
     replace_tagset_emplace z e p ts2 m fs = (st, (Ok r, fs')) ->
     Forall2 repadded ts1 r /\ exists w, emit_all z m r = (w, Ok r) /\ len w < 2 ^ 64 /\ find_node k fs' = Some (File (w ++ dropN T data))).
  { intros ts2 R2 S2 P2 B HR.
    destruct (emplace_sound z e p ts2 m fs data l r st fs' Hk Hl HT HL S2 P2 B HR) as (-> & _ & w & W1 & W2 & W3).
    fold T in W2. rewrite H0, N.add_0_r in W2. split; [exact R2|]. exists w. split; [exact W1|].
    split; [rewrite W2; apply N.lt_trans with (2 ^ 28); [exact HT|reflexivity]|]. rewrite W3, W2. apply find_set_same. }
  assert (HAdj : forall ts2 o, adjust_padding_to ts1 T n = (ts2, o) ->
     (run _ <- flift o;; replace_tagset_emplace z e p ts2 m) fs = (st, (Ok r, fs')) ->
     Forall2 repadded ts1 r /\ exists w, emit_all z m r = (w, Ok r) /\ len w < 2 ^ 64 /\ find_node k fs' = Some (File (w ++ dropN T data))).
  { intros ts2 o HA2 HR. rewrite fbind_lift in HR. destruct o as [[]|x|u|]; try discriminate.
    destruct (sv_adjusted z m l ts ts1 n pd HT HS HP Hz Hn ts2 HA2 Hw1) as (R2 & S2 & P2 & B & _). exact (HEmp ts2 R2 S2 P2 B HR). }
  unfold maybe_emplace_tagset in H. cbv zeta in H. fold k in H. unfold tagset_size in H. rewrite Hk, (extant_ok data l Hl) in H. fold T in H.
  rewrite fbind_lift in H. unfold tagset_sizes in H. rewrite Hz in H. cbn [bind] in H.
  assert (Ew : wrap64 n = n) by (unfold wrap64; apply N.mod_small; exact N64). rewrite Ew in H. rewrite fbind_lift in H.
  destruct (n <=? T).
  - destruct (n <? T).
    + destruct (adjust_padding_to ts1 T n) as [ts2 o] eqn:EA. now apply (HAdj ts2 o).
    + apply (HEmp ts1 (repadded_refl ts1) S1 HS1); [now rewrite <- En|exact H].
  - destruct (_ && _).
    + destruct (adjust_padding_to ts1 T n) as [ts2 o] eqn:EA. now apply (HAdj ts2 o).
    + destruct (emit_all_settled z m ts1 S1) as (w & W1 & W2 & _); [now rewrite <- En|].
      pose proof (copy_any z e p d nm ts1 m keep w (Ok ts1) fs data l Hp Hc Hd Hnm HA Hk Hl W1 Hdot Htk) as C. cbv zeta in C.
      rewrite H in C. destruct C as (_ & [_ C1] & C2 & C3). apply Ok_inj in C2. subst r.
      split; [apply repadded_refl|]. exists w. split; [exact W1|]. split; [|exact C3].
      apply N.le_lt_trans with n; [rewrite En; exact W2|exact N64].
Qed.

Lemma sizes_storable z m : forall ts n pd ts1, Forall (storable z m) ts -> sizes z m ts = Ok (n, pd, ts1) -> Forall (storable z m) ts1.
Proof.
  induction ts as [|t r IH]; intros n pd ts1 HS H; cbn [sizes] in H.
  - apply Ok_inj in H. injection H as _ _ <-. constructor.
  - apply Forall_cons_iff in HS as [S1 S2]. apply bind_ok in H as ([k t1] & Hp & H). apply bind_ok in H as ([[n' p'] r1] & Hr & H).
    apply Ok_inj in H. injection H as _ _ <-. constructor; [now apply (probe_storable z m t k)|now apply (IH n' p')].
Qed.

Lemma repadded_storable z m t t' : repadded t t' -> (is_v24 t' = true -> any_padding t' = 0) -> storable z m t -> storable z m t'.
Proof.
  unfold repadded, unpadded. destruct t as [[]|[]|[]], t' as [[]|[]|[]]; cbn; try discriminate; try tauto; intros H H0; injection H as; subst; tauto.
Qed.
Lemma v24_none ts : v24_padding ts = 0 -> Forall (fun t => is_v24 t = true -> any_padding t = 0) ts.
Proof.
  induction ts as [|t r IH]; [constructor|]. rewrite v24_cons. intros H. apply N.eq_add_0 in H as [H1 H2].
  constructor; [|now apply IH]. destruct t; try discriminate. cbn [mult] in H1. change (2 - 1) with 1 in H1. now rewrite N.mul_1_l in H1.
Qed.
Lemma repadded_same_tag t t' t'' : repadded t t' -> same_tag t' t'' -> same_tag t t''.
Proof.
  unfold repadded, unpadded. destruct t as [[]|[]|[]], t' as [[]|[]|[]]; cbn; try discriminate; intros H; injection H as; subst; destruct t''; tauto.
Qed.

Lemma repadded_marked m t t' t'' : repadded t t' -> marked m t' t'' -> marked m t t''.
Proof.
  unfold repadded, unpadded. destruct t as [[]|[]|[]], t' as [[]|[]|[]]; cbn; try discriminate; intros H; injection H as; subst; destruct t''; tauto.
Qed.

Lemma unpadded_back r ts'' : Forall (fun t => is_v24 t = true -> any_padding t = 0) r -> Forall2 same_tag r ts'' -> Forall2 same_padding r ts'' ->
  Forall (fun t => is_v24 t = true -> any_padding t = 0) ts''.
Proof.
  intros H1 H2. revert H1. induction H2 as [|a b ra rb Hab _ IH]; intros H1 H3; [constructor|].
  apply Forall_cons_iff in H1 as [A1 A2]. inversion H3 as [|? ? ? ? P1 P2]; subst. constructor; [|now apply IH].
  intros HV. destruct a as [a|a|a], b as [b|b|b]; try discriminate; try contradiction. specialize (A1 eq_refl).
  destruct P1 as [P1|[_ P1]]; rewrite A1 in P1; [exact P1|]. rewrite N.add_1_r in P1. now apply N.neq_succ_0 in P1.
Qed.

Lemma save_back z passes e p d nm ts m strat keep fs data l st r fs' n pd ts1 x : let k := resolve (e_cwd e) p in
  crc_range z -> (0 < passes)%nat ->
  p <> [] -> hd 0 (e_cwd e) = 47 -> dir_path d -> plain_name nm -> absolute (e_cwd e) p = spelled d nm ->
  find_node k fs = Some (File data) -> tags_from data 0 l -> tags_end 0 l < 2 ^ 28 -> tags_end 0 l <= len data ->
  Forall (fun t => any_padding t < 2 ^ 62) ts -> sizes z m ts = Ok (n, pd, ts1) -> n < 2 ^ 28 ->
  ~ wraps ts (tags_end 0 l) n -> e_tmp e <> k -> ~ In 46 (last (e_tmp e) []) -> Forall (storable z m) ts ->
  maybe_emplace_tagset z e p ts m strat keep fs = (st, (Ok r, fs')) -> v24_padding r = 0 ->
  exists data' ts'' s', find_node k fs' = Some (File data') /\
    read_all_id3v2 z passes (mkIs data' 0 x 0) = (Ok ts'', s') /\ Forall2 same_tag ts ts'' /\ Forall2 same_padding r ts'' /\ Forall2 (marked m) ts ts'' /\
    Forall (fun t => is_v24 t = true -> any_padding t = 0) ts''.
Proof.
  intros k Hz Hps Hp Hc Hd Hnm HA Hk Hl HT HL HP Hsz Hn Hw Htk Hdot Hst H H0.
  assert (HS : Forall sound_tag ts) by (eapply Forall_impl; [exact (storable_sound z m)|exact Hst]).
  destruct (save_written z e p d nm ts m strat keep fs data l st r fs' n pd ts1) as (R1 & w & W1 & W2 & W3); auto.
  pose proof (sizes_storable z m ts n pd ts1 Hst Hsz) as HS1.
  destruct (sizes_settled z m ts HS n pd ts1 Hsz) as (_ & _ & _ & Hsame & _).
  pose proof (v24_none r H0) as HSi1.
  assert (HSr : Forall (storable z m) r).
  { clear - R1 HS1 HSi1. induction R1 as [|a b ra rb Hab _ IH]; [constructor|].
    apply Forall_cons_iff in HS1 as [? ?]. apply Forall_cons_iff in HSi1 as [? ?].
    constructor; [now apply (repadded_storable z m a)|auto]. }
  destruct (saved_back z passes m r w r (dropN (tags_end 0 l) data) x Hz Hps HSr W1 W2 (rest_none data l Hl)) as (ts'' & s' & X1 & X2 & X3 & X4).
  exists (w ++ dropN (tags_end 0 l) data), ts'', s'. split; [exact W3|]. split; [exact X1|].
  assert (Q : Forall2 same_tag ts ts'' /\ Forall2 (marked m) ts ts''); [|split; [apply Q|split; [exact X3|split; [apply Q|exact (unpadded_back r ts'' HSi1 X2 X3)]]]].
  clear - Hsame R1 X2 X4. revert r R1 ts'' X2 X4.
  induction Hsame as [|a b ra rb Hab _ IH]; intros r R1 ts'' X2 X4; inversion R1; subst; inversion X2; subst; inversion X4; subst; [split; constructor|].
  destruct (IH l' H3 l'0) as [I1 I2]; auto. split; constructor; auto.
  - apply (same_tag_trans a b); [exact Hab|]. now apply (repadded_same_tag b y).
  - apply (marked_trans m a b); [exact Hab|]. now apply (repadded_marked m b y).
Qed.

(** Where the tags are all ID3v2.4 tags, or none is, those have no padding after the save. *)
Lemma simple_contents ts r : map contents r = map contents ts -> Forall simple_tag ts -> v24_padding r = 0.
Proof.
  revert ts. induction r as [|t r IH]; intros [|t0 ts] E H; try discriminate; [reflexivity|]. cbn [map] in E. injection E as E1 E2.
  apply Forall_cons_iff in H as [H1 H2]. rewrite v24_cons, (IH ts) by assumption.
  destruct t as [t|t|t], t0 as [t0|t0|t0]; try discriminate; try contradiction; reflexivity.
Qed.
Lemma same_v24_padding ts ts1 : Forall2 same_but_caches ts ts1 -> v24_padding ts1 = v24_padding ts.
Proof.
  induction 1 as [|a b ra rb Hab _ IH]; [reflexivity|]. rewrite !v24_cons, IH, (pad_same a b Hab), (mult_same a b Hab). reflexivity.
Qed.
Lemma v24_no_room z e p d nm ts m strat keep fs data l st r fs' n pd ts1 : let k := resolve (e_cwd e) p in
  p <> [] -> hd 0 (e_cwd e) = 47 -> dir_path d -> plain_name nm -> absolute (e_cwd e) p = spelled d nm ->
  find_node k fs = Some (File data) -> tags_from data 0 l -> tags_end 0 l < 2 ^ 28 -> tags_end 0 l <= len data ->
  Forall sound_tag ts -> Forall (fun t => any_padding t < 2 ^ 62) ts -> sizes z m ts = Ok (n, pd, ts1) -> n < 2 ^ 28 ->
  ~ wraps ts (tags_end 0 l) n -> e_tmp e <> k -> ~ In 46 (last (e_tmp e) []) ->
  ts <> [] -> Forall (fun t => is_v24 t = true) ts ->
  maybe_emplace_tagset z e p ts m strat keep fs = (st, (Ok r, fs')) -> r = ts1.
Proof.
  intros k Hp Hc Hd Hnm HA Hk Hl HT HL HS HP Hz Hn Hw Htk Hdot Hne H4 H. set (T := tags_end 0 l) in *.
  destruct (sv_facts z m ts ts1 n pd HS HP Hz) as (S1 & En & Ep & Hsame & HS1 & _ & Hpd).
  assert (N64 : n < 2 ^ 64) by (apply N.lt_trans with (2 ^ 28); [exact Hn|reflexivity]).
  assert (NR : ~ (n < T \/ (T < n /\ n - pd <= T /\ strat = ReducePaddingEvenly))).
  { intros C. destruct (save_v24_refused z e p ts m strat keep fs data l n pd ts1 Hk Hl HT HL HS HP Hz Hn Hne H4 Hw C) as (x & E).
    rewrite E in H. discriminate. }
  unfold maybe_emplace_tagset in H. cbv zeta in H. fold k in H. unfold tagset_size in H. rewrite Hk, (extant_ok data l Hl) in H. fold T in H.
  rewrite fbind_lift in H. unfold tagset_sizes in H. rewrite Hz in H. cbn [bind] in H.
  assert (Ew : wrap64 n = n) by (unfold wrap64; apply N.mod_small; exact N64). rewrite Ew in H. rewrite fbind_lift in H.
  destruct (N.leb_spec n T) as [L1|L1].
  - destruct (N.ltb_spec n T) as [L2|L2]; [elim NR; now left|].
    now destruct (emplace_sound z e p ts1 m fs data l r st fs' Hk Hl HT HL S1 HS1) as (-> & _); [rewrite <- En; exact N64|exact H|].
  - rewrite (wrap_sub n pd Hpd N64) in H.
    assert (B2 : ((n - pd <=? T) && match strat with OnlyWithFullPadding => false | ReducePaddingEvenly => true end = false)%bool).
    { destruct (N.leb_spec (n - pd) T) as [L|L]; [|reflexivity]. destruct strat; [reflexivity|]. elim NR. auto. }
    rewrite B2 in H. destruct (emit_all_settled z m ts1 S1) as (w & W1 & W2 & _); [now rewrite <- En|].
    pose proof (copy_any z e p d nm ts1 m keep w (Ok ts1) fs data l Hp Hc Hd Hnm HA Hk Hl W1 Hdot Htk) as C. cbv zeta in C.
    rewrite H in C. destruct C as (_ & _ & C2 & _). now apply Ok_inj in C2.
Qed.
Lemma storable_v24 z m ts : Forall (storable z m) ts -> v24_padding ts = 0.
Proof.
  induction 1 as [|t r Ht _ IH]; [reflexivity|]. rewrite v24_cons, IH, N.add_0_r. destruct t as [t|t|t]; [reflexivity..|].
  destruct Ht as (_ & _ & _ & _ & _ & E). cbn [any_padding]. now rewrite E.
Qed.
Lemma unmixed_padding z e p d nm ts m strat keep fs data l st r fs' n pd ts1 : let k := resolve (e_cwd e) p in
  p <> [] -> hd 0 (e_cwd e) = 47 -> dir_path d -> plain_name nm -> absolute (e_cwd e) p = spelled d nm ->
  find_node k fs = Some (File data) -> tags_from data 0 l -> tags_end 0 l < 2 ^ 28 -> tags_end 0 l <= len data ->
  Forall (storable z m) ts -> Forall (fun t => any_padding t < 2 ^ 62) ts -> sizes z m ts = Ok (n, pd, ts1) -> n < 2 ^ 28 ->
  ~ wraps ts (tags_end 0 l) n -> e_tmp e <> k -> ~ In 46 (last (e_tmp e) []) ->
  Forall simple_tag ts \/ Forall (fun t => is_v24 t = true) ts ->
  maybe_emplace_tagset z e p ts m strat keep fs = (st, (Ok r, fs')) -> v24_padding r = 0.
Proof.
  intros k Hp Hc Hd Hnm HA Hk Hl HT HL Hst HP Hz Hn Hw Htk Hdot HU H.
  assert (HS : Forall sound_tag ts) by (eapply Forall_impl; [exact (storable_sound z m)|exact Hst]).
  assert (HSimple : Forall simple_tag ts -> v24_padding r = 0).
  { intros HF. destruct (save_sound z e p d nm ts m strat keep fs data l st r fs' n pd ts1 Hp Hc Hd Hnm HA Hk Hl HT HL HS HP Hz Hn Hw Htk Hdot H) as (R1 & _).
    now apply (simple_contents ts). }
  destruct HU as [HU|HU]; [now apply HSimple|]. destruct ts as [|t ts]; [apply HSimple; constructor|].
  destruct (sv_facts z m _ ts1 n pd HS HP Hz) as (_ & _ & _ & Hsame & _).
  rewrite (v24_no_room z e p d nm (t :: ts) m strat keep fs data l st r fs' n pd ts1); auto; [|discriminate].
  rewrite (same_v24_padding _ _ Hsame). exact (storable_v24 z m _ Hst).
Qed.
