(** * Lemmas: what a stream remembers: the consequences. *)
From Verif Require Import Base M_Charset M_Encodings M_Ios S_Ios L_Ios L_Ios2 L_Ios3 L_Ios4.
#[local] Open Scope nat_scope.

Lemma inv_printer done w b t k s x :
  Inv done w b t k -> bk_streams b s = Some x -> get_pretty_printer s w = Ok (printer_used x).
Proof.
  intros I0 Es. pose proof (i_str _ _ _ _ _ I0 s) as H. rewrite Es in H. destruct H as (_ & H & _).
  unfold get_pretty_printer, printer_used. destruct (se_printer x) as [p|]; cbn [option_map] in H.
  - destruct (vl_some_own _ _ _ H) as (a & Ha & Hb). cbn [own] in Ha. rewrite Ha, Hb. reflexivity.
  - apply (vl_none_own _ _ (i_good _ _ _ _ _ I0)) in H. cbn [own] in H. rewrite H. reflexivity.
Qed.

Lemma inv_encoding done w b t k s x :
  Inv done w b t k -> bk_streams b s = Some x ->
  ienc_retrieve s w = (if t s then UB OutOfBounds else Ok (encoding_used x)).
Proof.
  intros I0 Es. pose proof (i_str _ _ _ _ _ I0 s) as H. rewrite Es in H. destruct H as (_ & _ & H & _).
  unfold ienc_retrieve, encoding_used. destruct (se_enc x) as [[e r]|] eqn:Ex; cbn [enc_ok] in H.
  - destruct (t s).
    + destruct H as (l & H & Hl & _). destruct (vl_some_own _ _ _ H) as (a & Ha & Hb).
      cbn [own] in Ha. rewrite Ha, Hb. apply Nat.ltb_lt in Hl. rewrite Hl. reflexivity.
    + destruct (vl_some_own _ _ _ H) as (a & Ha & Hb). cbn [own] in Ha. rewrite Ha, Hb.
      destruct (ienc_read e r) as (H1 & H2 & H3). rewrite H1, H2, H3. reflexivity.
  - apply (vl_none_own _ _ (i_good _ _ _ _ _ I0)) in H. cbn [own] in H. rewrite H.
    destruct (t s) eqn:Et; [|reflexivity]. pose proof (i_t _ _ _ _ _ I0 s Et) as Q.
    unfold has_encoding in Q. rewrite Es, Ex in Q. discriminate.
Qed.

Lemma all_settings l :
  once l ->
  exists w, run l empty_world = Ok w /\
    forall s x, bk_streams (notes l empty_book) s = Some x ->
      get_pretty_printer s w = Ok (printer_used x) /\
      (copied_encoding l s = false -> ienc_retrieve s w = Ok (encoding_used x)).
Proof.
  intros H. destruct (history l H) as (w & done & R & I0 & _). exists w. split; [exact R|].
  intros s x Es. split; [exact (inv_printer _ _ _ _ _ _ _ I0 Es)|]. intros Ht.
  rewrite (inv_encoding _ _ _ _ _ _ _ I0 Es), Ht. reflexivity.
Qed.

Lemma run_app l1 l2 w : run (l1 ++ l2) w = let* w1 := run l1 w in run l2 w1.
Proof.
  revert w. induction l1 as [|o l1 IH]; intros w; cbn [app run]; [reflexivity|].
  destruct (do_op o w); cbn [bind]; [apply IH|reflexivity|reflexivity|reflexivity].
Qed.

Lemma notes_app l1 l2 b : notes (l1 ++ l2) b = notes l2 (notes l1 b).
Proof. revert b. induction l1 as [|o l1 IH]; intros b; cbn [app notes]; [reflexivity|apply IH]. Qed.

Lemma tainted_app l1 l2 b t : tainted (l1 ++ l2) b t = tainted l2 (notes l1 b) (tainted l1 b t).
Proof. revert b t. induction l1 as [|o l1 IH]; intros b t; cbn [app notes tainted]; [reflexivity|apply IH]. Qed.

Lemma inserted_app l1 l2 : inserted (l1 ++ l2) = inserted l1 ++ inserted l2.
Proof. apply flat_map_app. Qed.

Lemma copied_lost l d s x :
  once l -> d <> s ->
  bk_streams (notes l empty_book) d <> None ->
  bk_streams (notes l empty_book) s = Some x -> se_enc x <> None ->
  exists w, run (l ++ [CopyFmt d s]) empty_world = Ok w /\ ienc_retrieve d w = UB OutOfBounds.
Proof.
  intros H N1 Hd Hs Hx.
  assert (H' : once (l ++ [CopyFmt d s])) by (unfold once; rewrite inserted_app, app_nil_r; exact H).
  destruct (history _ H') as (w & done & R & I0 & _). exists w. split; [exact R|].
  destruct (bk_streams (notes l empty_book) d) as [y|] eqn:Ed; [|congruence].
  assert (Ed' : bk_streams (notes (l ++ [CopyFmt d s]) empty_book) d = Some x).
  { rewrite notes_app. cbn [notes note]. rewrite Ed, Hs. cbn [with_streams bk_streams]. apply put_eq. }
  rewrite (inv_encoding _ _ _ _ _ _ _ I0 Ed').
  unfold copied_encoding. rewrite tainted_app. cbn [tainted taint]. rewrite Ed, Hs.
  destruct (Nat.eqb_spec d s); [congruence|]. rewrite put_eq, (copies_some _ _ _ _ _ Ed Hs N1).
  destruct (se_enc x); [reflexivity|congruence].
Qed.

Lemma all_freed l w :
  once l -> run l empty_world = Ok w -> all_gone (notes l empty_book) -> forall a, w_heap w a = None.
Proof.
  intros H R [Hs Hm] a. destruct (history l H) as (w' & done & R' & I0 & _).
  rewrite R in R'. injection R' as <-.
  destruct (w_heap w a) as [bl|] eqn:E; [|reflexivity]. exfalso.
  destruct (g_cov _ _ _ (i_good _ _ _ _ _ I0) a) as [o Ho]; [congruence|].
  destruct o as [s|s|m]; cbn [own] in Ho.
  - pose proof (i_str _ _ _ _ _ I0 s) as Q. rewrite Hs in Q. cbn [str_ok] in Q. rewrite Q in Ho. discriminate.
  - pose proof (i_str _ _ _ _ _ I0 s) as Q. rewrite Hs in Q. cbn [str_ok] in Q. rewrite Q in Ho. discriminate.
  - pose proof (i_man _ _ _ _ _ I0 m) as Q. rewrite Hm in Q. cbn [man_ok] in Q. rewrite Q in Ho. discriminate.
Qed.

(** ** Deletions *)
Lemma odd_exact l w : once l -> run l empty_world = Ok w -> w_odd w = wrong_deletes l.
Proof.
  intros H R. destruct (history l H) as (w' & done & R' & I0 & _). rewrite R in R'. injection R' as <-.
  exact (i_odd _ _ _ _ _ I0).
Qed.

Lemma misfits_app l1 l2 b t :
  misfits (l1 ++ l2) b t = misfits l1 b t + misfits l2 (notes l1 b) (tainted l1 b t).
Proof.
  revert b t. induction l1 as [|o l1 IH]; intros b t; cbn [app notes tainted misfits]; [reflexivity|].
  rewrite IH. lia.
Qed.

Lemma close_wrong l s w :
  once l -> has_encoding (notes l empty_book) s = true -> run l empty_world = Ok w ->
  exists w', run (l ++ [CloseStream s]) empty_world = Ok w' /\ w_odd w' = S (w_odd w).
Proof.
  intros H Hs R.
  assert (H' : once (l ++ [CloseStream s])) by (unfold once; rewrite inserted_app, app_nil_r; exact H).
  destruct (history _ H') as (w' & done & R' & I0 & _). exists w'. split; [exact R'|].
  rewrite (i_odd _ _ _ _ _ I0), (odd_exact _ _ H R). unfold wrong_deletes. rewrite misfits_app.
  cbn [misfits]. unfold misfit. rewrite Hs. lia.
Qed.

Definition sets_encoding (o : op) : bool :=
  match o with SetOut _ _ _ | SetIn _ _ _ => true | _ => false end.

Lemma no_misfits l : forall b t,
  (forall s, has_encoding b s = false) -> (forall s, t s = false) ->
  (forall o, In o l -> sets_encoding o = false) -> misfits l b t = 0.
Proof.
  induction l as [|o l IH]; intros b t Hb Ht Ho; cbn [misfits]; [reflexivity|].
  assert (H1 : misfit o b t = 0).
  { unfold misfit. specialize (Ho o (or_introl eq_refl)).
    destruct o; cbn [sets_encoding] in Ho; try discriminate; try reflexivity.
    - rewrite Hb, Bool.andb_false_r. reflexivity.
    - rewrite Hb. reflexivity. }
  rewrite H1. cbn [Nat.add]. apply IH; [| |intros o' H; apply Ho; right; exact H].
  - intros s. specialize (Ho o (or_introl eq_refl)). unfold has_encoding in *.
    destruct o as [|p|s0 m|m|s0 e r|s0 e r|d s0|s0]; cbn [sets_encoding] in Ho; try discriminate; cbn [note].
    + cbn [bk_streams]. unfold put. destruct (Nat.eq_dec s (bk_nstreams b)); [reflexivity|apply Hb].
    + apply Hb.
    + destruct (bk_streams b s0) as [x|] eqn:E; [|apply Hb]. destruct (bk_manips b m); [|apply Hb].
      cbn [with_streams bk_streams]. unfold put. destruct (Nat.eq_dec s s0) as [-> |]; [|apply Hb].
      cbn [se_enc]. specialize (Hb s0). rewrite E in Hb. exact Hb.
    + apply Hb.
    + destruct (bk_streams b d) as [x|]; [|apply Hb]. destruct (bk_streams b s0) as [y|] eqn:E; [|apply Hb].
      cbn [with_streams bk_streams]. unfold put. destruct (Nat.eq_dec s d) as [-> |]; [|apply Hb].
      specialize (Hb s0). rewrite E in Hb. exact Hb.
    + cbn [with_streams bk_streams]. unfold put. destruct (Nat.eq_dec s s0); [reflexivity|apply Hb].
  - intros s. specialize (Ho o (or_introl eq_refl)).
    destruct o as [|p|s0 m|m|s0 e r|s0 e r|d s0|s0]; cbn [sets_encoding] in Ho; try discriminate; cbn [taint]; try apply Ht.
    + unfold copies_encoding. destruct (bk_streams b d) as [x|]; [|apply Ht].
      destruct (bk_streams b s0) as [y|] eqn:E; [|apply Ht]. destruct (Nat.eqb_spec d s0) as [-> | N1]; [apply Ht|].
      unfold put. destruct (Nat.eq_dec s d); [|apply Ht].
      specialize (Hb s0). unfold has_encoding in Hb. rewrite E in Hb.
      rewrite Hb. apply Bool.andb_false_r.
    + unfold put. destruct (Nat.eq_dec s s0); [reflexivity|apply Ht].
Qed.

Lemma no_wrong_deletes l w :
  once l -> (forall s e r, ~ In (SetOut s e r) l /\ ~ In (SetIn s e r) l) ->
  run l empty_world = Ok w -> w_odd w = 0.
Proof.
  intros H Hn R. rewrite (odd_exact _ _ H R). apply no_misfits; try reflexivity.
  intros o Ho. destruct o as [|p|s0 m|m|s0 e r|s0 e r|d s0|s0]; try reflexivity; exfalso;
    destruct (Hn s0 e r) as [A1 A2]; contradiction.
Qed.

(** ** A manipulator put into streams twice *)
Definition spent (w : world) (m : nat) : Prop := (m < w_nman w)%nat /\ mn_pp (w_man w m) = None.

Lemma delete_man d p w w' : delete d p w = Ok w' -> w_man w' = w_man w /\ w_nman w' = w_nman w /\ w_ios w' = w_ios w.
Proof.
  destruct p as [a|]; cbn [delete].
  - destruct (w_heap w a); [|discriminate]. intros H. injection H as <-. repeat split.
  - intros H. injection H as <-. repeat split.
Qed.

Lemma erase_man s c w w' : on_erase s c w = Ok w' -> w_man w' = w_man w /\ w_nman w' = w_nman w /\ w_ios w' = w_ios w.
Proof. destruct c; apply delete_man. Qed.

Lemma call_erase_man s l : forall w w', call_all (on_erase s) l w = Ok w' ->
  w_man w' = w_man w /\ w_nman w' = w_nman w /\ w_ios w' = w_ios w.
Proof.
  induction l as [|c l IH]; intros w w' H; cbn [call_all] in H.
  - injection H as <-. auto.
  - destruct (on_erase s c w) as [w1| | |] eqn:E; cbn [bind] in H; try discriminate.
    destruct (erase_man _ _ _ _ E) as (A1 & A2 & A3). destruct (IH _ _ H) as (B1 & B2 & B3).
    rewrite B1, B2, B3. auto.
Qed.

Lemma copy_man s c w w' : on_copyfmt s c w = Ok w' -> w_man w' = w_man w /\ w_nman w' = w_nman w.
Proof.
  unfold on_copyfmt. destruct c.
  - destruct (io_pp (w_ios w s)) as [a|]; [|intros H; injection H as <-; auto].
    destruct (w_heap w a) as [[p|l|l]|]; try discriminate. cbn [alloc]. intros H. injection H as <-. auto.
  - destruct (io_ie (w_ios w s)) as [a|]; [|intros H; injection H as <-; auto].
    destruct (w_heap w a) as [[p|l|l]|]; try discriminate;
      (destruct (cstr l); cbn [bind alloc]; try discriminate; intros H; injection H as <-; auto).
Qed.

Lemma call_copy_man s l : forall w w', call_all (on_copyfmt s) l w = Ok w' ->
  w_man w' = w_man w /\ w_nman w' = w_nman w.
Proof.
  induction l as [|c l IH]; intros w w' H; cbn [call_all] in H.
  - injection H as <-. auto.
  - destruct (on_copyfmt s c w) as [w1| | |] eqn:E; cbn [bind] in H; try discriminate.
    destruct (copy_man _ _ _ _ E) as (A1 & A2). destruct (IH _ _ H) as (B1 & B2). rewrite B1, B2. auto.
Qed.

Lemma ienc_man e r s w w' : ienc_insert e r s w = Ok w' -> w_man w' = w_man w /\ w_nman w' = w_nman w.
Proof.
  unfold ienc_insert. cbn [alloc]. intros H. destruct (delete_man _ _ _ _ H) as (A1 & A2 & _). auto.
Qed.

Lemma spent_step o w w' m : spent w m -> do_op o w = Ok w' -> spent w' m.
Proof.
  intros [L E] H. destruct o as [|p|s m0|m0|s e r|s e r|d s|s]; cbn [do_op] in H.
  - injection H as <-. split; [exact L|exact E].
  - cbn [alloc] in H. injection H as <-. split; cbn [w_nman w_man]; [lia|].
    rewrite upd_neq by lia. exact E.
  - destruct (io_open (w_ios w s) && mn_there (w_man w m0)); [|injection H as <-; split; assumption].
    unfold do_manip in H. destruct (delete_man _ _ _ _ H) as (A1 & A2 & _).
    unfold spent. rewrite A1, A2. cbn [set_ios set_man w_man w_nman]. split; [exact L|].
    unfold upd. destruct (Nat.eqb_spec m m0); [reflexivity|exact E].
  - destruct (mn_there (w_man w m0)); [|injection H as <-; split; assumption].
    destruct (delete AsPrinter (mn_pp (w_man w m0)) w) as [w1| | |] eqn:Ed; cbn [bind] in H; try discriminate.
    injection H as <-. destruct (delete_man _ _ _ _ Ed) as (A1 & A2 & _).
    unfold spent. cbn [set_man w_man w_nman]. rewrite A1, A2. split; [exact L|].
    unfold upd. destruct (Nat.eqb_spec m m0); [reflexivity|exact E].
  - destruct (io_open (w_ios w s) && char_unit e); [|injection H as <-; split; assumption].
    destruct (ienc_man _ _ _ _ _ H) as (A1 & A2). unfold spent. rewrite A1, A2. split; assumption.
  - destruct (io_open (w_ios w s)); [|injection H as <-; split; assumption].
    destruct (ienc_man _ _ _ _ _ H) as (A1 & A2). unfold spent. rewrite A1, A2. split; assumption.
  - destruct (io_open (w_ios w d) && io_open (w_ios w s)); [|injection H as <-; split; assumption].
    unfold copyfmt in H. destruct (Nat.eqb d s); [injection H as <-; split; assumption|].
    destruct (call_all (on_erase d) (io_cbs (w_ios w d)) w) as [w1| | |] eqn:Ed; cbn [bind] in H; try discriminate.
    destruct (call_erase_man _ _ _ _ Ed) as (A1 & A2 & _).
    destruct (call_copy_man _ _ _ _ H) as (B1 & B2).
    unfold spent. rewrite B1, B2. cbn [set_ios w_man w_nman]. rewrite A1, A2. split; assumption.
  - destruct (io_open (w_ios w s)); [|injection H as <-; split; assumption].
    unfold close in H.
    destruct (call_all (on_erase s) (io_cbs (w_ios w s)) w) as [w1| | |] eqn:Ed; cbn [bind] in H; try discriminate.
    injection H as <-. destruct (call_erase_man _ _ _ _ Ed) as (A1 & A2 & _).
    unfold spent. cbn [set_ios w_man w_nman]. rewrite A1, A2. split; assumption.
Qed.

Lemma spent_steps l : forall w w' m, spent w m -> run l w = Ok w' -> spent w' m.
Proof.
  induction l as [|o l IH]; intros w w' m Hs H; cbn [run] in H.
  - injection H as <-. exact Hs.
  - destruct (do_op o w) as [w1| | |] eqn:E; cbn [bind] in H; try discriminate.
    exact (IH _ _ _ (spent_step _ _ _ _ Hs E) H).
Qed.

Lemma man_below done w b t k m : Inv done w b t k -> bk_manips b m <> None -> (m < w_nman w)%nat.
Proof.
  intros I0 H. rewrite (i_nm _ _ _ _ _ I0). destruct (Nat.le_gt_cases (bk_nmanips b) m) as [L|L]; [|exact L].
  exfalso. apply H. exact (i_am _ _ _ _ _ I0 m L).
Qed.

Lemma NoDup_app_l {A} (x y : list A) : NoDup (x ++ y) -> NoDup x.
Proof.
  induction x as [|a x IH]; intros H; [constructor|]. inversion H as [|? ? H1 H2]; subst. constructor.
  - intros K. apply H1. apply in_or_app. left. exact K.
  - apply IH. exact H2.
Qed.

(** Once put into a stream that is there, a manipulator has nothing to give. *)
Lemma used_spent l1 l2 s0 m w :
  once (l1 ++ Insert s0 m :: l2) ->
  bk_streams (notes l1 empty_book) s0 <> None -> bk_manips (notes l1 empty_book) m <> None ->
  run (l1 ++ Insert s0 m :: l2) empty_world = Ok w -> spent w m.
Proof.
  intros H Hs Hm R. rewrite run_app in R.
  assert (H1 : once l1).
  { unfold once in *. rewrite inserted_app in H. exact (NoDup_app_l _ _ H). }
  destruct (history l1 H1) as (w1 & done & R1 & I1 & _). rewrite R1 in R. cbn [bind run] in R.
  destruct (do_op (Insert s0 m) w1) as [w2| | |] eqn:E; cbn [bind] in R; try discriminate.
  apply (spent_steps l2 w2 w m); [|exact R].
  cbn [do_op] in E. rewrite (str_open _ _ _ _ (i_str _ _ _ _ _ I1 s0)), (man_there _ _ _ _ (i_man _ _ _ _ _ I1 m)) in E.
  pose proof (man_below _ _ _ _ _ _ I1 Hm) as L.
  destruct (bk_streams (notes l1 empty_book) s0); [|congruence].
  destruct (bk_manips (notes l1 empty_book) m); [|congruence]. cbn [some andb] in E.
  unfold do_manip in E. destruct (delete_man _ _ _ _ E) as (A1 & A2 & _).
  unfold spent. rewrite A1, A2. cbn [set_ios set_man w_man w_nman]. split; [exact L|]. rewrite upd_eq. reflexivity.
Qed.

Lemma insert_spent done w b t k s m :
  Inv done w b t k -> bk_streams b s <> None -> bk_manips b m <> None -> spent w m ->
  exists w', do_op (Insert s m) w = Ok w' /\
    io_open (w_ios w' s) = true /\ io_pp (w_ios w' s) = None /\ In CbPrinter (io_cbs (w_ios w' s)) /\
    w_nman w' = w_nman w /\ (forall a, w_heap w' a <> None -> (a < w_next w')%nat).
Proof.
  intros I0 Hs Hm [_ Sp]. cbn [do_op].
  pose proof (i_str _ _ _ _ _ I0 s) as St. pose proof (i_man _ _ _ _ _ I0 m) as Mn.
  rewrite (str_open _ _ _ _ St), (man_there _ _ _ _ Mn).
  destruct (bk_streams b s) as [x|]; [|congruence]. destruct (bk_manips b m) as [p|]; [|congruence].
  cbn [some andb]. unfold do_manip.
  rewrite (delete_pp _ (io_pp (w_ios w s)));
    [|intros a Ha; cbn [set_ios set_man w_heap]; exact (pp_printer _ _ _ _ _ _ _ I0 Ha)].
  eexists. split; [reflexivity|]. cbn [set_ios set_man w_heap w_next w_ios w_nios w_man w_nman w_odd].
  rewrite upd_eq. cbn [io_open io_pp io_cbs]. destruct St as (So & _ & _ & Sc).
  split; [exact So|]. split; [exact Sp|]. split; [|split; [reflexivity|]].
  - destruct (io_pp (w_ios w s)) as [a|]; [|left; reflexivity].
    destruct (io_ie (w_ios w s)); cbn [cbs_ok] in Sc.
    + destruct Sc as [-> | ->]; [left; reflexivity|right; left; reflexivity].
    + rewrite Sc. left. reflexivity.
  - intros a Ha. apply (g_fresh _ _ _ (i_good _ _ _ _ _ I0)). intros E. apply Ha.
    destruct (io_pp (w_ios w s)) as [y|]; cbn [hfree]; [|exact E]. unfold upd.
    destruct (Nat.eqb a y); [reflexivity|exact E].
Qed.

(** Deleting again what is gone. *)
Lemma erase_dangling s a l : forall w,
  io_pp (w_ios w s) = Some a -> w_heap w a = None -> In CbPrinter l ->
  call_all (on_erase s) l w = UB Dangling.
Proof.
  induction l as [|c l IH]; intros w Hp Hh Hi; [destruct Hi|]. cbn [call_all].
  destruct c; cbn [on_erase].
  - rewrite Hp. cbn [delete]. rewrite Hh. reflexivity.
  - destruct Hi as [Hi | Hi]; [discriminate|].
    destruct (io_ie (w_ios w s)) as [c|] eqn:Ec; cbn [delete].
    + destruct (w_heap w c) as [bl|] eqn:Eb; cbn [bind]; [|reflexivity]. apply IH.
      * exact Hp.
      * cbn [w_heap]. unfold upd. destruct (Nat.eqb a c); [reflexivity|exact Hh].
      * exact Hi.
    + cbn [bind]. apply IH; assumption.
Qed.

Lemma used_twice l1 l2 s0 m s :
  once (l1 ++ Insert s0 m :: l2) ->
  bk_streams (notes l1 empty_book) s0 <> None -> bk_manips (notes l1 empty_book) m <> None ->
  let l := l1 ++ Insert s0 m :: l2 in
  let b := notes l empty_book in
  bk_streams b s <> None -> bk_manips b m <> None ->
  (exists w, run (l ++ [Insert s m]) empty_world = Ok w /\ get_pretty_printer s w = Ok standard_printer) /\
  (forall p, run (l ++ [Insert s m; NewManip p; Insert s (bk_nmanips b); CloseStream s]) empty_world = UB Dangling).
Proof.
  intros H Hs0 Hm0 l b Hs Hm.
  destruct (history l H) as (w & done & R & I0 & _).
  pose proof (used_spent _ _ _ _ _ H Hs0 Hm0 R) as Sp.
  destruct (insert_spent _ _ _ _ _ _ _ I0 Hs Hm Sp) as (w1 & R1 & Op1 & Pp1 & Cb1 & Nm1 & Fr1).
  split.
  - exists w1. rewrite run_app, R. cbn [bind run]. rewrite R1. cbn [bind]. split; [reflexivity|].
    unfold get_pretty_printer. rewrite Pp1. reflexivity.
  - intros p. rewrite run_app, R. cbn [bind run]. rewrite R1. cbn [bind]. cbn [do_op alloc bind].
    cbn [w_ios w_man w_heap w_next w_nios w_nman w_odd].
    assert (Nb : bk_nmanips b = w_nman w1) by (rewrite Nm1; symmetry; exact (i_nm _ _ _ _ _ I0)).
    rewrite Nb, upd_eq, Op1. cbn [mn_there andb]. unfold do_manip.
    cbn [w_ios w_man w_heap w_next w_nios w_nman w_odd set_ios set_man].
    rewrite Pp1. cbn [delete bind]. cbn [w_ios]. rewrite upd_eq. cbn [io_open]. rewrite Op1. cbn [mn_pp].
    unfold close, set_ios, set_man. cbn [w_ios w_man w_heap w_next w_nios w_nman w_odd]. rewrite upd_eq. cbn [io_open io_cbs call_all on_erase].
    cbn [w_ios]. rewrite upd_eq. cbn [io_pp].
    rewrite (delete_some _ _ (BlPrinter p)); [|cbn [w_heap]; apply upd_eq]. cbn [bind].
    rewrite (erase_dangling s (w_next w1)); [reflexivity| | |exact Cb1].
    + cbn [w_ios]. rewrite upd_eq. reflexivity.
    + cbn [w_heap]. apply upd_eq.
Qed.
