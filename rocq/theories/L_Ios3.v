(** * Lemmas: what a stream remembers, in every history (continued). *)
From Verif Require Import Base M_Charset M_Encodings M_Ios S_Ios L_Ios L_Ios2.

Definition enc_ok (t : bool) (x : option (enc * noenc)) (v : option block) : Prop :=
  match x with
  | None => v = None
  | Some (e, r) =>
      if t then exists l, v = Some (BlStr l) /\ (length l < 8)%nat /\ cstr l = Ok l
      else v = Some (BlIenc (ienc_bytes e r))
  end.

Definition str_ok (w : world) (t : nat -> bool) (s : nat) (x : option settings) : Prop :=
  match x with
  | None => w_ios w s = no_ios
  | Some x =>
      io_open (w_ios w s) = true /\
      vl (w_heap w) (own w) (OPp s) = option_map BlPrinter (se_printer x) /\
      enc_ok (t s) (se_enc x) (vl (w_heap w) (own w) (OIe s)) /\
      cbs_ok (io_pp (w_ios w s)) (io_ie (w_ios w s)) (io_cbs (w_ios w s))
  end.

Definition man_ok (done : list nat) (w : world) (m : nat) (x : option printer) : Prop :=
  match x with
  | None => w_man w m = no_manip
  | Some p =>
      mn_there (w_man w m) = true /\
      (vl (w_heap w) (own w) (OMan m) = Some (BlPrinter p) \/ mn_pp (w_man w m) = None /\ In m done)
  end.

Record Inv (done : list nat) (w : world) (b : book) (t : nat -> bool) (k : nat) : Prop := {
  i_good : Good (w_heap w) (w_next w) (own w);
  i_ns : w_nios w = bk_nstreams b;
  i_nm : w_nman w = bk_nmanips b;
  i_as : forall s, (bk_nstreams b <= s)%nat -> bk_streams b s = None;
  i_am : forall m, (bk_nmanips b <= m)%nat -> bk_manips b m = None;
  i_str : forall s, str_ok w t s (bk_streams b s);
  i_man : forall m, man_ok done w m (bk_manips b m);
  i_t : forall s, t s = true -> has_encoding b s = true;
  i_odd : w_odd w = k
}.

Lemma inv_empty : Inv [] empty_world empty_book (fun _ => false) 0.
Proof.
  constructor; cbn; try reflexivity; try discriminate.
  - constructor; cbn.
    + intros [s|s|m] o2 a H; discriminate.
    + congruence.
    + congruence.
    + intros [s|s|m] a H; discriminate.
Qed.

(** A world in which only the owners in question changed. *)
Lemma str_frame w w' t t' s x :
  (s = s -> w_ios w' s = w_ios w s) -> t' s = t s ->
  vl (w_heap w') (own w') (OPp s) = vl (w_heap w) (own w) (OPp s) ->
  vl (w_heap w') (own w') (OIe s) = vl (w_heap w) (own w) (OIe s) ->
  str_ok w t s x -> str_ok w' t' s x.
Proof.
  intros E T V1 V2 H. specialize (E eq_refl). unfold str_ok in *. destruct x as [x|].
  - rewrite E, T, V1, V2. exact H.
  - rewrite E. exact H.
Qed.

Lemma man_frame done done' w w' m x :
  w_man w' m = w_man w m ->
  vl (w_heap w') (own w') (OMan m) = vl (w_heap w) (own w) (OMan m) ->
  (forall y, In y done -> In y done') ->
  man_ok done w m x -> man_ok done' w' m x.
Proof.
  intros E V D H. unfold man_ok in *. destruct x as [x|].
  - rewrite E, V. destruct H as [H1 [H2 | [H2 H3]]]; split; auto.
  - rewrite E. exact H.
Qed.

Lemma vl_some_own w o b : vl (w_heap w) (own w) o = Some b -> exists a, own w o = Some a /\ w_heap w a = Some b.
Proof. unfold vl. destruct (own w o) as [a|]; [|discriminate]. intros H. exists a. auto. Qed.
Lemma vl_none_own w o :
  Good (w_heap w) (w_next w) (own w) -> vl (w_heap w) (own w) o = None -> own w o = None.
Proof.
  intros G. unfold vl. destruct (own w o) as [a|] eqn:E; [|reflexivity]. intros H.
  pose proof (g_live _ _ _ G o a E). congruence.
Qed.
Lemma own_none_vl w o : own w o = None -> vl (w_heap w) (own w) o = None.
Proof. intros E. unfold vl. rewrite E. reflexivity. Qed.

Lemma str_open w t s x : str_ok w t s x -> io_open (w_ios w s) = some x.
Proof. destruct x as [x|]; cbn [str_ok some]; [intros [H _]; exact H|intros ->; reflexivity]. Qed.
Lemma man_there done w m x : man_ok done w m x -> mn_there (w_man w m) = some x.
Proof. destruct x as [x|]; cbn [man_ok some]; [intros [H _]; exact H|intros ->; reflexivity]. Qed.


(** ** Making things *)
Lemma step_new_stream done w b t k :
  Inv done w b t k ->
  exists w', do_op NewStream w = Ok w' /\ Inv done w' (note NewStream b) (taint NewStream b t) (k + misfit NewStream b t).
Proof.
  intros I0. eexists. split; [reflexivity|]. cbn [note taint misfit].
  destruct I0 as [G Ns Nm As Am St Ma T O].
  assert (Z : w_ios w (w_nios w) = no_ios).
  { specialize (St (bk_nstreams b)). rewrite As in St by lia. rewrite Ns. exact St. }
  assert (Eo : forall o, own (mkWorld (w_heap w) (w_next w) (upd (w_ios w) (w_nios w) (mkIos true None None []))
                  (S (w_nios w)) (w_man w) (w_nman w) (w_odd w)) o = own w o).
  { intros [s|s|m]; cbn [own w_ios w_man]; try reflexivity; unfold upd;
      (destruct (Nat.eqb_spec s (w_nios w)) as [-> |]; [rewrite Z; reflexivity|reflexivity]). }
  constructor; cbn [w_heap w_next w_ios w_nios w_man w_nman w_odd bk_streams bk_nstreams bk_manips bk_nmanips].
  - apply (good_ext _ _ _ _ _ G); [reflexivity|exact Eo].
  - congruence.
  - exact Nm.
  - intros s Hs. rewrite put_neq by lia. apply As. lia.
  - exact Am.
  - intros s. unfold put. destruct (Nat.eq_dec s (bk_nstreams b)) as [-> | Ns'].
    + unfold str_ok. cbn [w_heap w_ios]. rewrite Ns in *. rewrite !upd_eq.
      cbn [io_open io_pp io_ie io_cbs cbs_ok se_printer se_enc option_map enc_ok].
      repeat split; unfold vl; rewrite Eo; cbn [own]; rewrite Z; reflexivity.
    + apply (str_frame w) with (t := t); [|reflexivity| | |apply St].
      * intros _. cbn [w_ios]. apply upd_neq. congruence.
      * apply vl_ext; [reflexivity|apply Eo].
      * apply vl_ext; [reflexivity|apply Eo].
  - intros m. apply (man_frame done done w); [reflexivity| |auto|apply Ma].
    apply vl_ext; [reflexivity|apply Eo].
  - intros s Hs. specialize (T s Hs). unfold has_encoding in *. cbn [bk_streams].
    destruct (Nat.eq_dec s (bk_nstreams b)) as [-> | Ns'].
    + rewrite As in T by lia. discriminate.
    + rewrite put_neq by exact Ns'. exact T.
  - rewrite Nat.add_0_r. exact O.
Qed.

Lemma step_new_manip done w b t k p :
  Inv done w b t k ->
  exists w', do_op (NewManip p) w = Ok w' /\ Inv done w' (note (NewManip p) b) (taint (NewManip p) b t) (k + misfit (NewManip p) b t).
Proof.
  intros I0. eexists. split; [reflexivity|]. cbn [note taint misfit alloc].
  destruct I0 as [G Ns Nm As Am St Ma T O].
  assert (Z : w_man w (w_nman w) = no_manip).
  { specialize (Ma (bk_nmanips b)). rewrite Am in Ma by lia. rewrite Nm. exact Ma. }
  assert (Z' : own w (OMan (w_nman w)) = None) by (cbn [own]; rewrite Z; reflexivity).
  destruct (good_put _ _ _ (OMan (w_nman w)) (BlPrinter p) G Z') as (G1 & V1 & V1').
  cbn [w_heap w_next w_ios w_nios w_man w_nman w_odd].
  match goal with |- Inv _ ?x _ _ _ => set (w' := x) end.
  assert (Eo : forall o, own w' o = oput (own w) (OMan (w_nman w)) (Some (w_next w)) o).
  { intros o. unfold oput. destruct (owner_eq_dec o (OMan (w_nman w))) as [-> | No].
    - cbn [own]. unfold w'. cbn [w_man]. rewrite upd_eq. reflexivity.
    - destruct o as [s|s|m]; cbn [own]; unfold w'; cbn [w_ios w_man]; try reflexivity.
      rewrite upd_neq by congruence. reflexivity. }
  assert (Vo : forall o, o <> OMan (w_nman w) -> vl (w_heap w') (own w') o = vl (w_heap w) (own w) o).
  { intros o No. rewrite <- (V1' o No). apply vl_ext; [reflexivity|apply Eo]. }
  constructor; unfold w'; cbn [w_heap w_next w_ios w_nios w_man w_nman w_odd bk_streams bk_nstreams bk_manips bk_nmanips]; fold w'.
  - apply (good_ext _ _ _ _ _ G1); [reflexivity|exact Eo].
  - exact Ns.
  - congruence.
  - exact As.
  - intros m Hm. rewrite put_neq by lia. apply Am. lia.
  - intros s. apply (str_frame w) with (t := t); [reflexivity|reflexivity| | |apply St]; apply Vo; discriminate.
  - intros m. unfold put. destruct (Nat.eq_dec m (bk_nmanips b)) as [-> | Nm'].
    + unfold man_ok. rewrite <- Nm. split; [unfold w'; cbn [w_man]; rewrite upd_eq; reflexivity|]. left.
      rewrite <- V1. apply vl_ext; [reflexivity|apply Eo].
    + apply (man_frame done done w); [| |auto|apply Ma].
      * unfold w'. cbn [w_man]. apply upd_neq. congruence.
      * apply Vo. congruence.
  - exact T.
  - rewrite Nat.add_0_r. exact O.
Qed.

Lemma pp_printer done w b t k s a :
  Inv done w b t k -> io_pp (w_ios w s) = Some a -> exists p, w_heap w a = Some (BlPrinter p).
Proof.
  intros I0 E. pose proof (i_str _ _ _ _ _ I0 s) as H. unfold str_ok in H.
  destruct (bk_streams b s) as [x|].
  - destruct H as (_ & H & _). destruct (se_printer x) as [p|]; cbn [option_map] in H.
    + exists p. unfold vl in H. cbn [own] in H. rewrite E in H. exact H.
    + apply (vl_none_own _ _ (i_good _ _ _ _ _ I0)) in H. cbn [own] in H. congruence.
  - rewrite H in E. discriminate.
Qed.

Lemma ie_iff done w b t k s :
  Inv done w b t k -> some (io_ie (w_ios w s)) = has_encoding b s.
Proof.
  intros I0. pose proof (i_str _ _ _ _ _ I0 s) as H. unfold str_ok in H. unfold has_encoding.
  destruct (bk_streams b s) as [x|]; [|rewrite H; reflexivity].
  destruct H as (_ & _ & H & _). destruct (se_enc x) as [[e r]|]; cbn [enc_ok] in H.
  - assert (H1 : exists v, vl (w_heap w) (own w) (OIe s) = Some v).
    { destruct (t s); [destruct H as (l & H & _)|]; eexists; exact H. }
    destruct H1 as [v H1]. destruct (vl_some_own _ _ _ H1) as (a & Ha & _). cbn [own] in Ha. rewrite Ha. reflexivity.
  - apply (vl_none_own _ _ (i_good _ _ _ _ _ I0)) in H. cbn [own] in H. rewrite H. reflexivity.
Qed.

(** ** Dropping a manipulator *)
Lemma step_drop done w b t k m :
  Inv done w b t k ->
  exists w', do_op (DropManip m) w = Ok w' /\
             Inv done w' (note (DropManip m) b) (taint (DropManip m) b t) (k + misfit (DropManip m) b t).
Proof.
  intros I0. cbn [do_op note taint misfit]. rewrite Nat.add_0_r.
  pose proof (i_man _ _ _ _ _ I0 m) as Hm. rewrite (man_there _ _ _ _ Hm).
  destruct (bk_manips b m) as [p|] eqn:Em; cbn [some].
  - destruct (good_drop _ _ _ (OMan m) (i_good _ _ _ _ _ I0)) as [G1 V1].
    destruct I0 as [G Ns Nm As Am St Ma T O].
    assert (Hd : delete AsPrinter (mn_pp (w_man w m)) w =
                 Ok (mkWorld (hfree (w_heap w) (own w (OMan m))) (w_next w) (w_ios w) (w_nios w)
                             (w_man w) (w_nman w) (w_odd w))).
    { cbn [own]. destruct Hm as [_ [Hm | [Hm _]]].
      - destruct (vl_some_own _ _ _ Hm) as (a & Ha & Hb). cbn [own] in Ha. rewrite Ha.
        rewrite (delete_some _ _ _ _ Hb). cbn [fits hfree]. rewrite Nat.add_0_r. reflexivity.
      - rewrite Hm. cbn [delete hfree]. destruct w; reflexivity. }
    rewrite Hd. cbn [bind]. eexists. split; [reflexivity|].
    match goal with |- Inv _ ?x _ _ _ => set (w' := x) end.
    assert (Eo : forall o, own w' o = oput (own w) (OMan m) None o).
    { intros o. unfold oput. destruct (owner_eq_dec o (OMan m)) as [-> | No].
      - cbn [own]. unfold w', set_man. cbn [w_man]. rewrite upd_eq. reflexivity.
      - destruct o as [s|s|m']; cbn [own]; unfold w', set_man; cbn [w_ios w_man]; try reflexivity.
        rewrite upd_neq by congruence. reflexivity. }
    assert (Vo : forall o, o <> OMan m -> vl (w_heap w') (own w') o = vl (w_heap w) (own w) o).
    { intros o No. rewrite <- (V1 o No). apply vl_ext; [reflexivity|apply Eo]. }
    constructor; unfold w'; cbn [set_man w_heap w_next w_ios w_nios w_man w_nman w_odd bk_streams bk_nstreams bk_manips bk_nmanips]; fold w'.
    + apply (good_ext _ _ _ _ _ G1); [reflexivity|exact Eo].
    + exact Ns.
    + exact Nm.
    + exact As.
    + intros m' Hm'. unfold put. destruct (Nat.eq_dec m' m); [reflexivity|]. apply Am. exact Hm'.
    + intros s. apply (str_frame w) with (t := t); [reflexivity|reflexivity| | |apply St]; apply Vo; discriminate.
    + intros m'. unfold put. destruct (Nat.eq_dec m' m) as [-> | Nm'].
      * unfold man_ok, w'. cbn [set_man w_man]. apply upd_eq.
      * apply (man_frame done done w); [| |auto|apply Ma].
        -- unfold w'. cbn [set_man w_man]. apply upd_neq. exact Nm'.
        -- apply Vo. congruence.
    + exact T.
    + exact O.
  - exists w. split; [reflexivity|]. destruct I0 as [G Ns Nm As Am St Ma T O].
    constructor; cbn [bk_streams bk_nstreams bk_manips bk_nmanips]; try assumption.
    + intros m' Hm'. unfold put. destruct (Nat.eq_dec m' m); [reflexivity|]. apply Am. exact Hm'.
    + intros m'. unfold put. destruct (Nat.eq_dec m' m) as [-> | Nm']; [exact Hm|apply Ma].
Qed.

(** ** Putting a printer into a stream *)
Lemma delete_pp w1 (a : option nat) :
  (forall x, a = Some x -> exists p, w_heap w1 x = Some (BlPrinter p)) ->
  delete AsPrinter a w1 =
  Ok (mkWorld (hfree (w_heap w1) a) (w_next w1) (w_ios w1) (w_nios w1) (w_man w1) (w_nman w1) (w_odd w1)).
Proof.
  intros H. destruct a as [a|].
  - destruct (H a eq_refl) as [p Hp]. rewrite (delete_some _ _ _ _ Hp). cbn [fits hfree].
    rewrite Nat.add_0_r. reflexivity.
  - cbn [delete hfree]. destruct w1; reflexivity.
Qed.

Lemma cbs_pp pp ie l n :
  cbs_ok pp ie l ->
  cbs_ok (Some n) ie (match pp with None => CbPrinter :: l | Some _ => l end).
Proof.
  destruct pp, ie; cbn [cbs_ok]; auto; intros ->; auto.
Qed.
Lemma cbs_ie pp ie l n :
  cbs_ok pp ie l ->
  cbs_ok pp (Some n) (match ie with None => CbIenc :: l | Some _ => l end).
Proof.
  destruct pp, ie; cbn [cbs_ok]; auto; intros ->; auto.
Qed.

Lemma step_insert done w b t k s m :
  Inv done w b t k -> ~ In m done ->
  exists w', do_op (Insert s m) w = Ok w' /\
             Inv (m :: done) w' (note (Insert s m) b) (taint (Insert s m) b t) (k + misfit (Insert s m) b t).
Proof.
  intros I0 Nd. cbn [do_op note taint misfit]. rewrite Nat.add_0_r.
  pose proof (i_man _ _ _ _ _ I0 m) as Hm. rewrite (man_there _ _ _ _ Hm).
  pose proof (i_str _ _ _ _ _ I0 s) as Hs. rewrite (str_open _ _ _ _ Hs).
  assert (Same : Inv (m :: done) w b t k).
  { destruct I0 as [G Ns Nm As Am St Ma T O]. constructor; try assumption.
    intros m'. apply (man_frame done (m :: done) w w); [reflexivity|reflexivity| |apply Ma].
    intros y Hy. right. exact Hy. }
  destruct (bk_streams b s) as [x|] eqn:Es; cbn [some andb]; [|exists w; split; [reflexivity|exact Same]].
  destruct (bk_manips b m) as [p|] eqn:Em; cbn [some]; [|exists w; split; [reflexivity|exact Same]].
  clear Same. destruct Hm as [Hm1 [Hm2 | [_ Hm2]]]; [|exfalso; exact (Nd Hm2)].
  destruct Hs as (Hs1 & Hs2 & Hs3 & Hs4).
  unfold do_manip. rewrite (delete_pp _ (io_pp (w_ios w s)));
    [|intros a Ha; cbn [set_ios set_man w_heap]; exact (pp_printer _ _ _ _ _ _ _ I0 Ha)].
  eexists. split; [reflexivity|]. cbn [set_ios set_man w_heap w_next w_ios w_nios w_man w_nman w_odd].
  destruct (good_drop _ _ _ (OPp s) (i_good _ _ _ _ _ I0)) as [G1 V1].
  destruct (good_move _ _ _ (OMan m) (OPp s) G1 (oput_eq _ _ _) ltac:(discriminate)) as (G2 & V2 & V2').
  rewrite (oput_neq _ (OPp s) None (OMan m)) in G2, V2, V2' by discriminate.
  destruct I0 as [G Ns Nm As Am St Ma T O].
  match goal with |- Inv _ ?x _ _ _ => set (w' := x) end.
  assert (Eo : forall o, own w' o = oput (oput (oput (own w) (OPp s) None) (OPp s) (own w (OMan m))) (OMan m) None o).
  { intros o. unfold oput. destruct (owner_eq_dec o (OMan m)) as [-> | No].
    - cbn [own]. unfold w'. cbn [w_man]. rewrite upd_eq. reflexivity.
    - destruct (owner_eq_dec o (OPp s)) as [-> | No'].
      + cbn [own]. unfold w'. cbn [w_ios]. rewrite upd_eq. reflexivity.
      + destruct o as [s'|s'|m']; cbn [own]; unfold w'; cbn [w_ios w_man].
        * rewrite upd_neq by congruence. reflexivity.
        * unfold upd. destruct (Nat.eqb_spec s' s) as [-> |]; reflexivity.
        * rewrite upd_neq by congruence. reflexivity. }
  assert (Vo : forall o, o <> OMan m -> o <> OPp s -> vl (w_heap w') (own w') o = vl (w_heap w) (own w) o).
  { intros o A1 A2. rewrite <- (V1 o A2), <- (V2' o A1 A2). apply vl_ext; [reflexivity|apply Eo]. }
  assert (Vp : vl (w_heap w') (own w') (OPp s) = Some (BlPrinter p)).
  { rewrite <- Hm2, <- (V1 (OMan m)), <- V2 by discriminate. apply vl_ext; [reflexivity|apply Eo]. }
  destruct (vl_some_own _ _ _ Vp) as (a & Ha & _).
  constructor; unfold w'; cbn [with_streams w_heap w_next w_ios w_nios w_man w_nman w_odd bk_streams bk_nstreams bk_manips bk_nmanips]; fold w'.
  - apply (good_ext _ _ _ _ _ G2); [reflexivity|exact Eo].
  - exact Ns.
  - exact Nm.
  - intros s' Hs'. unfold put. destruct (Nat.eq_dec s' s) as [-> |]; [|apply As; exact Hs'].
    rewrite (As s Hs') in Es. discriminate.
  - exact Am.
  - intros s'. unfold put. destruct (Nat.eq_dec s' s) as [-> | Ns'].
    + unfold str_ok. cbn [se_printer se_enc option_map]. rewrite Vp.
      assert (Ei : w_ios w' s = mkIos (io_open (w_ios w s)) (mn_pp (w_man w m)) (io_ie (w_ios w s))
                    match io_pp (w_ios w s) with None => CbPrinter :: io_cbs (w_ios w s) | Some _ => io_cbs (w_ios w s) end).
      { unfold w'. cbn [w_ios]. apply upd_eq. }
      rewrite Ei. cbn [io_open io_pp io_ie io_cbs].
      split; [exact Hs1|]. split; [reflexivity|]. split.
      * rewrite (Vo (OIe s)) by discriminate. exact Hs3.
      * cbn [own] in Ha. rewrite Ei in Ha. cbn [io_pp] in Ha. rewrite Ha. apply cbs_pp. exact Hs4.
    + apply (str_frame w) with (t := t); [|reflexivity| | |apply St].
      * intros _. unfold w'. cbn [w_ios]. apply upd_neq. exact Ns'.
      * apply Vo; congruence.
      * apply Vo; congruence.
  - intros m'. destruct (Nat.eq_dec m' m) as [-> | Nm'].
    + rewrite Em. split; [unfold w'; cbn [w_man]; rewrite upd_eq; exact Hm1|]. right.
      split; [unfold w'; cbn [w_man]; rewrite upd_eq; reflexivity|left; reflexivity].
    + apply (man_frame done (m :: done) w); [| | |apply Ma].
      * unfold w'. cbn [w_man]. apply upd_neq. exact Nm'.
      * apply Vo; congruence.
      * intros y Hy. right. exact Hy.
  - intros s' Hs'. specialize (T s' Hs'). unfold has_encoding in *. cbn [with_streams bk_streams].
    unfold put. destruct (Nat.eq_dec s' s) as [-> |]; [|exact T]. rewrite Es in T. exact T.
  - exact O.
Qed.
