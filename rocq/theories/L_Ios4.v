(** * Lemmas: what a stream remembers, in every history (continued). *)
From Verif Require Import Base M_Charset M_Encodings M_Ios S_Ios L_Ios L_Ios2 L_Ios3.

(** ** Putting an encoding into a stream *)
Lemma step_enc done w b t k s e r x :
  Inv done w b t k -> bk_streams b s = Some x ->
  exists w', ienc_insert e r s w = Ok w' /\
             Inv done w' (with_streams b (put (bk_streams b) s (Some (mkSettings (se_printer x) (Some (e, r))))))
                 (put t s false) (k + (if t s then 1 else 0)).
Proof.
  intros I0 Es. pose proof (i_str _ _ _ _ _ I0 s) as Hs. rewrite Es in Hs.
  destruct Hs as (Hs1 & Hs2 & Hs3 & Hs4).
  pose proof (i_good _ _ _ _ _ I0) as G.
  assert (Hold : forall a, io_ie (w_ios w s) = Some a ->
                 exists bl, w_heap w a = Some bl /\ a <> w_next w /\ fits bl AsIenc = negb (t s)).
  { intros a Ha. pose proof (g_live _ _ _ G (OIe s) a Ha) as L.
    destruct (w_heap w a) as [bl|] eqn:Eb; [|congruence]. exists bl. split; [reflexivity|]. split.
    - intros ->. pose proof (g_fresh _ _ _ G (w_next w)) as F. rewrite Eb in F.
      specialize (F L). lia.
    - assert (V : vl (w_heap w) (own w) (OIe s) = Some bl) by (unfold vl; cbn [own]; rewrite Ha; exact Eb).
      rewrite V in Hs3. destruct (se_enc x) as [[e0 r0]|]; cbn [enc_ok] in Hs3; [|discriminate].
      destruct (t s); [destruct Hs3 as (l & H & _)|rename Hs3 into H]; injection H as ->; reflexivity. }
  assert (Hnone : io_ie (w_ios w s) = None -> t s = false).
  { intros Hi. destruct (t s) eqn:Et; [|reflexivity]. pose proof (i_t _ _ _ _ _ I0 s Et) as H.
    rewrite <- (ie_iff _ _ _ _ _ s I0), Hi in H. discriminate. }
  assert (Run : exists h',
    (forall a, h' a = upd (hfree (w_heap w) (own w (OIe s))) (w_next w) (Some (BlIenc (ienc_bytes e r))) a) /\
    ienc_insert e r s w =
    Ok (mkWorld h' (S (w_next w))
         (upd (w_ios w) s (mkIos (io_open (w_ios w s)) (io_pp (w_ios w s)) (Some (w_next w))
            match io_ie (w_ios w s) with None => CbIenc :: io_cbs (w_ios w s) | Some _ => io_cbs (w_ios w s) end))
         (w_nios w) (w_man w) (w_nman w) (w_odd w + (if t s then 1 else 0)))).
  { unfold ienc_insert. cbn [alloc set_ios w_heap w_next w_ios w_nios w_man w_nman w_odd own].
    destruct (io_ie (w_ios w s)) as [a|] eqn:Ea.
    - destruct (Hold a eq_refl) as (bl & Hb & Hn & Hf).
      rewrite (delete_some _ _ bl); [|cbn [set_ios w_heap w_next w_ios w_nios w_man w_nman w_odd]; rewrite upd_neq by exact Hn; exact Hb].
      cbn [w_heap w_next w_ios w_nios w_man w_nman w_odd]. rewrite Hf.
      eexists. split; [|destruct (t s); reflexivity]. intros y. cbn [hfree]. unfold upd.
      destruct (Nat.eqb_spec y a) as [-> |]; [destruct (Nat.eqb_spec a (w_next w)); congruence|reflexivity].
    - cbn [delete hfree]. rewrite (Hnone eq_refl), Nat.add_0_r. eexists. split; [|reflexivity]. reflexivity. }
  destruct Run as (h' & Hh & ->). eexists. split; [reflexivity|].
  destruct (good_drop _ _ _ (OIe s) G) as [G1 V1].
  destruct (good_put _ _ _ (OIe s) (BlIenc (ienc_bytes e r)) G1 (oput_eq _ _ _)) as (G2 & V2 & V2').
  match goal with |- Inv _ ?y _ _ _ => set (w' := y) end.
  assert (Eo : forall o, own w' o = oput (oput (own w) (OIe s) None) (OIe s) (Some (w_next w)) o).
  { intros o. unfold oput. destruct (owner_eq_dec o (OIe s)) as [-> | No'].
    - cbn [own]. unfold w'. cbn [w_ios]. rewrite upd_eq. reflexivity.
    - destruct o as [s'|s'|m']; cbn [own]; unfold w'; cbn [w_ios w_man].
      + unfold upd. destruct (Nat.eqb_spec s' s) as [-> |]; reflexivity.
      + rewrite upd_neq by congruence. reflexivity.
      + reflexivity. }
  assert (Vo : forall o, o <> OIe s -> vl (w_heap w') (own w') o = vl (w_heap w) (own w) o).
  { intros o A1. rewrite <- (V1 o A1), <- (V2' o A1). apply vl_ext; [exact Hh|apply Eo]. }
  assert (Ve : vl (w_heap w') (own w') (OIe s) = Some (BlIenc (ienc_bytes e r))).
  { rewrite <- V2. apply vl_ext; [exact Hh|apply Eo]. }
  assert (Ei : w_ios w' s = mkIos (io_open (w_ios w s)) (io_pp (w_ios w s)) (Some (w_next w))
            match io_ie (w_ios w s) with None => CbIenc :: io_cbs (w_ios w s) | Some _ => io_cbs (w_ios w s) end).
  { unfold w'. cbn [w_ios]. apply upd_eq. }
  destruct I0 as [_ Ns Nm As Am St Ma T O].
  constructor; unfold w'; cbn [with_streams w_heap w_next w_ios w_nios w_man w_nman w_odd bk_streams bk_nstreams bk_manips bk_nmanips]; fold w'.
  - apply (good_ext _ _ _ _ _ G2); [exact Hh|exact Eo].
  - exact Ns.
  - exact Nm.
  - intros s' Hs'. unfold put. destruct (Nat.eq_dec s' s) as [-> |]; [|apply As; exact Hs'].
    rewrite (As s Hs') in Es. discriminate.
  - exact Am.
  - intros s'. unfold put at 2. destruct (Nat.eq_dec s' s) as [-> | Ns'].
    + unfold str_ok. cbn [se_printer se_enc]. rewrite Ei. cbn [io_open io_pp io_ie io_cbs].
      split; [exact Hs1|]. split; [rewrite Vo by discriminate; exact Hs2|]. split.
      * rewrite put_eq. exact Ve.
      * apply cbs_ie. exact Hs4.
    + apply (str_frame w) with (t := t); [| | | |apply St].
      * intros _. unfold w'. cbn [w_ios]. apply upd_neq. exact Ns'.
      * apply put_neq. exact Ns'.
      * apply Vo; congruence.
      * apply Vo; congruence.
  - intros m'. apply (man_frame done done w); [reflexivity| |auto|apply Ma]. apply Vo. discriminate.
  - intros s' Hs'. unfold put in Hs'. destruct (Nat.eq_dec s' s) as [-> | Ns']; [discriminate|].
    specialize (T s' Hs'). unfold has_encoding in *. cbn [with_streams bk_streams].
    rewrite put_neq by exact Ns'. exact T.
  - rewrite O. reflexivity.
Qed.

(** ** Closing a stream *)
Lemma step_close done w b t k s :
  Inv done w b t k ->
  exists w', do_op (CloseStream s) w = Ok w' /\
             Inv done w' (note (CloseStream s) b) (taint (CloseStream s) b t) (k + misfit (CloseStream s) b t).
Proof.
  intros I0. cbn [do_op note taint misfit].
  pose proof (i_str _ _ _ _ _ I0 s) as Hs. rewrite (str_open _ _ _ _ Hs).
  pose proof (i_good _ _ _ _ _ I0) as G.
  destruct (bk_streams b s) as [x|] eqn:Es; cbn [some].
  - destruct Hs as (Hs1 & Hs2 & Hs3 & Hs4). unfold close.
    destruct (erase_all w s G Hs4 (fun a => pp_printer _ _ _ _ _ s a I0)) as (h1 & Hh & ->).
    cbn [bind]. eexists. split; [reflexivity|].
    destruct (good_drop2 _ _ _ (OPp s) (OIe s) G ltac:(discriminate)) as [G1 V1].
    rewrite (ie_iff _ _ _ _ _ s I0).
    match goal with |- Inv _ ?y _ _ _ => set (w' := y) end.
    assert (Eo : forall o, own w' o = oput (oput (own w) (OPp s) None) (OIe s) None o).
    { intros o. unfold oput. destruct (owner_eq_dec o (OIe s)) as [-> | N1].
      - cbn [own]. unfold w', set_ios. cbn [w_ios]. rewrite upd_eq. reflexivity.
      - destruct (owner_eq_dec o (OPp s)) as [-> | N2].
        + cbn [own]. unfold w', set_ios. cbn [w_ios]. rewrite upd_eq. reflexivity.
        + destruct o as [s'|s'|m']; cbn [own]; unfold w', set_ios; cbn [w_ios w_man]; try reflexivity;
            (rewrite upd_neq by congruence; reflexivity). }
    assert (Vo : forall o, o <> OPp s -> o <> OIe s -> vl (w_heap w') (own w') o = vl (w_heap w) (own w) o).
    { intros o A1 A2. rewrite <- (V1 o A1 A2). apply vl_ext; [exact Hh|apply Eo]. }
    destruct I0 as [_ Ns Nm As Am St Ma T O].
    constructor; unfold w'; cbn [set_ios with_streams w_heap w_next w_ios w_nios w_man w_nman w_odd bk_streams bk_nstreams bk_manips bk_nmanips]; fold w'.
    + apply (good_ext _ _ _ _ _ G1); [exact Hh|exact Eo].
    + exact Ns.
    + exact Nm.
    + intros s' Hs'. unfold put. destruct (Nat.eq_dec s' s); [reflexivity|]. apply As. exact Hs'.
    + exact Am.
    + intros s'. unfold put at 2. destruct (Nat.eq_dec s' s) as [-> | Ns'].
      * cbn [str_ok]. unfold w', set_ios. cbn [w_ios]. apply upd_eq.
      * apply (str_frame w) with (t := t); [| | | |apply St].
        -- intros _. unfold w', set_ios. cbn [w_ios]. apply upd_neq. exact Ns'.
        -- apply put_neq. exact Ns'.
        -- apply Vo; congruence.
        -- apply Vo; congruence.
    + intros m'. apply (man_frame done done w); [reflexivity| |auto|apply Ma]. apply Vo; discriminate.
    + intros s' Hs'. unfold put in Hs'. destruct (Nat.eq_dec s' s) as [-> | Ns']; [discriminate|].
      specialize (T s' Hs'). unfold has_encoding in *. cbn [with_streams bk_streams].
      rewrite put_neq by exact Ns'. exact T.
    + rewrite O. reflexivity.
  - exists w. split; [reflexivity|].
    assert (Ht : t s = false).
    { destruct (t s) eqn:Et; [|reflexivity]. pose proof (i_t _ _ _ _ _ I0 s Et) as H.
      unfold has_encoding in H. rewrite Es in H. discriminate. }
    unfold misfit, has_encoding. rewrite Es, Nat.add_0_r.
    destruct I0 as [_ Ns Nm As Am St Ma T O].
    constructor; cbn [with_streams bk_streams bk_nstreams bk_manips bk_nmanips]; try assumption.
    + intros s' Hs'. unfold put. destruct (Nat.eq_dec s' s); [reflexivity|]. apply As. exact Hs'.
    + intros s'. unfold put at 2. destruct (Nat.eq_dec s' s) as [-> | Ns']; [exact Hs|].
      apply (str_frame w) with (t := t); try reflexivity; [apply put_neq; exact Ns'|apply St].
    + intros s' Hs'. unfold put in Hs'. destruct (Nat.eq_dec s' s) as [-> | Ns']; [discriminate|].
      specialize (T s' Hs'). unfold has_encoding in *. cbn [with_streams bk_streams].
      rewrite put_neq by exact Ns'. exact T.
Qed.

(** ** Copying one stream's formatting to another *)
Lemma enc_dup t x v :
  enc_ok t x v -> enc_ok (some x) x (match v with Some b => dup_of b | None => None end).
Proof.
  destruct x as [[e r]|]; cbn [enc_ok some].
  - destruct t; intros H.
    + destruct H as (l & -> & H1 & H2). cbn [dup_of]. rewrite H2. exists l. auto.
    + rewrite H. cbn [dup_of]. destruct (ienc_cstr e r) as (l & H1 & H2 & H3). rewrite H1. exists l. auto.
  - intros ->. reflexivity.
Qed.

Lemma copies_some b d s x y :
  bk_streams b d = Some x -> bk_streams b s = Some y -> d <> s ->
  copies_encoding (CopyFmt d s) b = some (se_enc y).
Proof.
  intros H1 H2 N1. unfold copies_encoding. rewrite H1, H2.
  destruct (Nat.eqb_spec d s); [congruence|]. destruct (se_enc y); reflexivity.
Qed.

Lemma step_copy done w b t k d s :
  Inv done w b t k ->
  exists w', do_op (CopyFmt d s) w = Ok w' /\
             Inv done w' (note (CopyFmt d s) b) (taint (CopyFmt d s) b t) (k + misfit (CopyFmt d s) b t).
Proof.
  intros I0. cbn [do_op note]. unfold taint, misfit.
  pose proof (i_str _ _ _ _ _ I0 s) as Hs. rewrite (str_open _ _ _ _ Hs).
  pose proof (i_str _ _ _ _ _ I0 d) as Hd. rewrite (str_open _ _ _ _ Hd).
  pose proof (i_good _ _ _ _ _ I0) as G. unfold there.
  destruct (bk_streams b d) as [x|] eqn:Ed; cbn [some andb].
  2:{ exists w. split; [reflexivity|].
      assert (Z : has_encoding b d = false) by (unfold has_encoding; rewrite Ed; reflexivity).
      rewrite Z, Bool.andb_false_r, Nat.add_0_r. exact I0. }
  destruct (bk_streams b s) as [y|] eqn:Es; cbn [some andb].
  2:{ exists w. split; [reflexivity|]. rewrite Bool.andb_false_r, Nat.add_0_r. exact I0. }
  unfold copyfmt. destruct (Nat.eqb_spec d s) as [<- | Nds]; cbn [negb andb].
  { exists w. split; [reflexivity|]. rewrite Nat.add_0_r.
    assert (x = y) by congruence. subst y.
    destruct I0 as [G' Ns Nm As Am St Ma T O].
    constructor; cbn [with_streams bk_streams bk_nstreams bk_manips bk_nmanips]; try assumption.
    - intros s' Hs'. unfold put. destruct (Nat.eq_dec s' d) as [-> |]; [|apply As; exact Hs'].
      rewrite (As d Hs') in Ed. discriminate.
    - intros s'. unfold put. destruct (Nat.eq_dec s' d) as [-> |]; [exact Hd|apply St].
    - intros s' Hs'. specialize (T s' Hs'). unfold has_encoding in *. cbn [with_streams bk_streams].
      unfold put. destruct (Nat.eq_dec s' d) as [-> |]; [|exact T]. rewrite Ed in T. exact T. }
  destruct Hs as (Hs1 & Hs2 & Hs3 & Hs4). destruct Hd as (Hd1 & Hd2 & Hd3 & Hd4).
  destruct (erase_all w d G Hd4 (fun a => pp_printer _ _ _ _ _ d a I0)) as (h1 & Hh & ->).
  cbn [bind]. rewrite (ie_iff _ _ _ _ _ d I0).
  destruct (good_drop2 _ _ _ (OPp d) (OIe d) G ltac:(discriminate)) as [G1 V1].
  set (ow := oput (oput (own w) (OPp d) None) (OIe d) None) in *.
  cbn [w_ios].
  match goal with |- exists w', call_all _ _ ?z = _ /\ _ => set (w2 := z) end.
  assert (Ei2 : w_ios w2 d = mkIos (io_open (w_ios w d)) (io_pp (w_ios w s)) (io_ie (w_ios w s)) (io_cbs (w_ios w s))).
  { unfold w2, set_ios. cbn [w_ios]. apply upd_eq. }
  assert (Eq2 : forall s', s' <> d -> w_ios w2 s' = w_ios w s').
  { intros s' N1. unfold w2, set_ios. cbn [w_ios]. apply upd_neq. exact N1. }
  assert (Go : Good (w_heap w2) (w_next w2) ow).
  { apply (good_ext _ _ _ _ _ G1); [exact Hh|reflexivity]. }
  assert (Eow : forall o, o <> OPp d -> o <> OIe d -> own w2 o = ow o).
  { intros o A1 A2. unfold ow. rewrite !oput_neq by assumption.
    destruct o as [s'|s'|m']; cbn [own].
    - rewrite Eq2 by congruence. reflexivity.
    - rewrite Eq2 by congruence. reflexivity.
    - reflexivity. }
  assert (Vow : forall o, o <> OPp d -> o <> OIe d -> vl (w_heap w2) ow o = vl (w_heap w) (own w) o).
  { intros o A1 A2. rewrite <- (V1 o A1 A2). apply vl_ext; [exact Hh|reflexivity]. }
  assert (Vpp : vl (w_heap w2) (own w2) (OPp d) = vl (w_heap w) (own w) (OPp s)).
  { rewrite <- (Vow (OPp s)) by congruence. unfold vl.
    rewrite <- (Eow (OPp s)) by congruence. cbn [own]. rewrite Ei2, (Eq2 s) by congruence. reflexivity. }
  assert (Vie : vl (w_heap w2) (own w2) (OIe d) = vl (w_heap w) (own w) (OIe s)).
  { rewrite <- (Vow (OIe s)) by congruence. unfold vl.
    rewrite <- (Eow (OIe s)) by congruence. cbn [own]. rewrite Ei2, (Eq2 s) by congruence. reflexivity. }
  assert (Copy : exists w3,
    call_all (on_copyfmt d) (io_cbs (w_ios w2 d)) w2 = Ok w3 /\
    Good (w_heap w3) (w_next w3) (own w3) /\
    vl (w_heap w3) (own w3) (OPp d) = vl (w_heap w2) (own w2) (OPp d) /\
    vl (w_heap w3) (own w3) (OIe d) =
      match vl (w_heap w2) (own w2) (OIe d) with Some b => dup_of b | None => None end /\
    (forall o, o <> OPp d -> o <> OIe d -> vl (w_heap w3) (own w3) o = vl (w_heap w2) ow o) /\
    (forall s', s' <> d -> w_ios w3 s' = w_ios w2 s') /\
    io_open (w_ios w3 d) = io_open (w_ios w2 d) /\
    cbs_ok (io_pp (w_ios w3 d)) (io_ie (w_ios w3 d)) (io_cbs (w_ios w3 d)) /\
    (w_nios w3 = w_nios w2 /\ w_man w3 = w_man w2 /\ w_nman w3 = w_nman w2 /\ w_odd w3 = w_odd w2)).
  { apply copy_all.
    - exact Go.
    - unfold ow. rewrite oput_neq by discriminate. apply oput_eq.
    - apply oput_eq.
    - exact Eow.
    - rewrite Ei2. exact Hs4.
    - rewrite Ei2. cbn [io_pp]. intros a Ha.
      destruct (pp_printer _ _ _ _ _ s a I0 Ha) as [p Hp]. exists p.
      rewrite Hs2 in Vpp. unfold vl in Vpp. cbn [own] in Vpp. rewrite Ei2 in Vpp. cbn [io_pp] in Vpp.
      rewrite Ha in Vpp. rewrite Vpp.
      unfold vl in Hs2. cbn [own] in Hs2. rewrite Ha, Hp in Hs2. symmetry. exact Hs2.
    - rewrite Ei2. cbn [io_ie]. intros c Hc.
      unfold vl in Vie. cbn [own] in Vie. rewrite Ei2 in Vie. cbn [io_ie] in Vie. rewrite Hc in Vie.
      rewrite Vie. clear Vie. unfold vl in Hs3. cbn [own] in Hs3. rewrite Hc in Hs3.
      destruct (se_enc y) as [[e r]|]; cbn [enc_ok] in Hs3.
      + destruct (t s).
        * destruct Hs3 as (l & -> & _ & H). exists (BlStr l), (BlStr l). split; [reflexivity|].
          cbn [dup_of]. rewrite H. reflexivity.
        * rewrite Hs3. destruct (ienc_cstr e r) as (l & H & _). exists (BlIenc (ienc_bytes e r)), (BlStr l).
          split; [reflexivity|]. cbn [dup_of]. rewrite H. reflexivity.
      + exfalso. pose proof (g_live _ _ _ G (OIe s) c Hc). congruence. }
  destruct Copy as (w3 & R & G3 & P3 & E3 & O3 & S3 & Op3 & C3 & C4 & C5 & C6 & C7).
  rewrite Ei2 in R. cbn [io_cbs] in R. rewrite R. exists w3. split; [reflexivity|].
  rewrite (copies_some b d s x y Ed Es Nds).
  destruct I0 as [_ Ns Nm As Am St Ma T O].
  constructor; cbn [with_streams bk_streams bk_nstreams bk_manips bk_nmanips].
  - exact G3.
  - rewrite C4. exact Ns.
  - rewrite C6. exact Nm.
  - intros s' Hs'. unfold put. destruct (Nat.eq_dec s' d) as [-> |]; [|apply As; exact Hs'].
    rewrite (As d Hs') in Ed. discriminate.
  - exact Am.
  - intros s'. unfold put at 2. destruct (Nat.eq_dec s' d) as [-> | Ns'].
    + unfold str_ok. rewrite Op3, Ei2, P3, Vpp, E3, Vie, put_eq. cbn [io_open].
      split; [exact Hd1|]. split; [exact Hs2|]. split; [exact (enc_dup _ _ _ Hs3)|exact C3].
    + apply (str_frame w) with (t := t); [| | | |apply St].
      * intros _. rewrite S3 by exact Ns'. apply Eq2. exact Ns'.
      * apply put_neq. exact Ns'.
      * rewrite O3 by congruence. apply Vow; congruence.
      * rewrite O3 by congruence. apply Vow; congruence.
  - intros m'. apply (man_frame done done w); [rewrite C5; reflexivity| |auto|apply Ma].
    rewrite O3 by discriminate. apply Vow; discriminate.
  - intros s' Hs'. unfold has_encoding. cbn [with_streams bk_streams]. unfold put in *.
    destruct (Nat.eq_dec s' d) as [-> | Ns']; [destruct (se_enc y); [reflexivity|discriminate]|].
    exact (T s' Hs').
  - rewrite C7. unfold w2, set_ios. cbn [w_odd]. rewrite O. reflexivity.
Qed.

(** ** Every history *)
Definition with_done (o : op) (done : list nat) : list nat :=
  match o with Insert _ m => m :: done | _ => done end.

Lemma step done w b t k o :
  Inv done w b t k -> (forall s m, o = Insert s m -> ~ In m done) ->
  exists w', do_op o w = Ok w' /\
             Inv (with_done o done) w' (note o b) (taint o b t) (k + misfit o b t).
Proof.
  intros I0 Nd. destruct o as [|p|s m|m|s e r|s e r|d s|s]; cbn [with_done].
  - apply step_new_stream. exact I0.
  - apply step_new_manip. exact I0.
  - apply step_insert; [exact I0|]. exact (Nd s m eq_refl).
  - apply step_drop. exact I0.
  - cbn [do_op note taint]. unfold misfit.
    pose proof (i_str _ _ _ _ _ I0 s) as Hs. rewrite (str_open _ _ _ _ Hs). clear Hs.
    destruct (bk_streams b s) as [x|] eqn:Es; cbn [some andb].
    + destruct (char_unit e); cbn [andb].
      * exact (step_enc done w b t k s e r x I0 Es).
      * exists w. rewrite Nat.add_0_r. split; [reflexivity|exact I0].
    + exists w. split; [reflexivity|].
      assert (Ht : t s = false).
      { destruct (t s) eqn:Et; [|reflexivity]. pose proof (i_t _ _ _ _ _ I0 s Et) as H.
        unfold has_encoding in H. rewrite Es in H. discriminate. }
      rewrite Ht, Bool.andb_false_r, Nat.add_0_r. destruct (char_unit e); [|exact I0].
      destruct I0 as [G' Ns Nm As Am St Ma T O]. constructor; try assumption.
      * intros s'. apply (str_frame w) with (t := t); try reflexivity; [|apply St].
        unfold put. destruct (Nat.eq_dec s' s) as [-> |]; [congruence|reflexivity].
      * intros s' H. unfold put in H. destruct (Nat.eq_dec s' s); [discriminate|]. apply T. exact H.
  - cbn [do_op note taint]. unfold misfit.
    pose proof (i_str _ _ _ _ _ I0 s) as Hs. rewrite (str_open _ _ _ _ Hs). clear Hs.
    destruct (bk_streams b s) as [x|] eqn:Es; cbn [some].
    + exact (step_enc done w b t k s e r x I0 Es).
    + exists w. split; [reflexivity|].
      assert (Ht : t s = false).
      { destruct (t s) eqn:Et; [|reflexivity]. pose proof (i_t _ _ _ _ _ I0 s Et) as H.
        unfold has_encoding in H. rewrite Es in H. discriminate. }
      rewrite Ht, Nat.add_0_r.
      destruct I0 as [G' Ns Nm As Am St Ma T O]. constructor; try assumption.
      * intros s'. apply (str_frame w) with (t := t); try reflexivity; [|apply St].
        unfold put. destruct (Nat.eq_dec s' s) as [-> |]; [congruence|reflexivity].
      * intros s' H. unfold put in H. destruct (Nat.eq_dec s' s); [discriminate|]. apply T. exact H.
  - apply step_copy. exact I0.
  - apply step_close. exact I0.
Qed.

Lemma steps l : forall done w b t k,
  Inv done w b t k -> NoDup (inserted l) -> (forall m, In m done -> ~ In m (inserted l)) ->
  exists w' done', run l w = Ok w' /\
    Inv done' w' (notes l b) (tainted l b t) (k + misfits l b t) /\
    (forall m, In m done' -> In m done \/ In m (inserted l)).
Proof.
  induction l as [|o l IH]; intros done w b t k I0 Nd D.
  - exists w, done. cbn [run notes tainted misfits]. rewrite Nat.add_0_r. auto.
  - assert (Hi : inserted (o :: l) = match o with Insert _ m => [m] | _ => [] end ++ inserted l) by reflexivity.
    rewrite Hi in Nd, D.
    destruct (step done w b t k o I0) as (w1 & R & I1).
    { intros s m -> H. apply (D m H). left. reflexivity. }
    cbn [run notes tainted misfits]. rewrite R. cbn [bind].
    assert (Nd' : NoDup (inserted l)).
    { destruct o; cbn [app] in Nd; try exact Nd. inversion Nd; assumption. }
    destruct (IH _ _ _ _ _ I1 Nd') as (w2 & done2 & R2 & I2 & D2).
    { intros m Hm. destruct o as [|p|s m0|m0|s e r|s e r|d s|s]; cbn [with_done app] in *; try exact (D m Hm).
      destruct Hm as [<- | Hm].
      - inversion Nd; assumption.
      - intros H. apply (D m Hm). right. exact H. }
    exists w2, done2. rewrite Nat.add_assoc. split; [exact R2|]. split; [exact I2|].
    intros m Hm. rewrite Hi. specialize (D2 m Hm).
    destruct o as [|p|s m0|m0|s e r|s e r|d s|s]; cbn [with_done app] in *; try exact D2.
    destruct D2 as [[<- | D2] | D2]; [right; left; reflexivity|left; exact D2|right; right; exact D2].
Qed.

Lemma history l :
  once l -> exists w done, run l empty_world = Ok w /\
    Inv done w (notes l empty_book) (copied_encoding l) (wrong_deletes l) /\
    (forall m, In m done -> In m (inserted l)).
Proof.
  intros H. destruct (steps l [] empty_world empty_book (fun _ => false) 0 inv_empty H) as (w & done & R & I1 & D).
  - intros m [].
  - exists w, done. split; [exact R|]. split; [exact I1|]. intros m Hm. destruct (D m Hm) as [[] | K]. exact K.
Qed.
