(** * Lemmas: what a stream remembers, in every history (continued). *)
From Verif Require Import Base M_Charset M_Encodings M_Ios S_Ios L_Ios.

Definition some {A} (x : option A) : bool := match x with Some _ => true | None => false end.

Definition cbs_ok (pp ie : option nat) (l : list callback) : Prop :=
  match pp, ie with
  | None, None => l = []
  | Some _, None => l = [CbPrinter]
  | None, Some _ => l = [CbIenc]
  | Some _, Some _ => l = [CbPrinter; CbIenc] \/ l = [CbIenc; CbPrinter]
  end.

Lemma delete_some d a b w :
  w_heap w a = Some b ->
  delete d (Some a) w =
  Ok (mkWorld (upd (w_heap w) a None) (w_next w) (w_ios w) (w_nios w) (w_man w)
              (w_nman w) (w_odd w + (if fits b d then 0 else 1))%nat).
Proof. intros H. unfold delete. rewrite H. reflexivity. Qed.

Lemma fits_char b : fits b AsChar = false.
Proof. destruct b; reflexivity. Qed.

Lemma hfree2 h a c x : hfree (hfree h (Some a)) (Some c) x = hfree (hfree h (Some c)) (Some a) x.
Proof.
  cbn [hfree]. unfold upd. destruct (Nat.eqb x c), (Nat.eqb x a); reflexivity.
Qed.

Lemma erase_all w d :
  Good (w_heap w) (w_next w) (own w) ->
  cbs_ok (io_pp (w_ios w d)) (io_ie (w_ios w d)) (io_cbs (w_ios w d)) ->
  (forall a, io_pp (w_ios w d) = Some a -> exists p, w_heap w a = Some (BlPrinter p)) ->
  exists h1,
    (forall x, h1 x = hfree (hfree (w_heap w) (io_pp (w_ios w d))) (io_ie (w_ios w d)) x) /\
    call_all (on_erase d) (io_cbs (w_ios w d)) w =
    Ok (mkWorld h1 (w_next w) (w_ios w) (w_nios w) (w_man w) (w_nman w)
                (w_odd w + (if some (io_ie (w_ios w d)) then 1 else 0))).
Proof.
  intros G C P.
  assert (D : forall a c, io_pp (w_ios w d) = Some a -> io_ie (w_ios w d) = Some c -> a <> c).
  { intros a c H1 H2 ->. pose proof (g_inj _ _ _ G (OPp d) (OIe d) c H1 H2). discriminate. }
  assert (L : forall c, io_ie (w_ios w d) = Some c -> exists b, w_heap w c = Some b).
  { intros c H. pose proof (g_live _ _ _ G (OIe d) c H) as H1.
    destruct (w_heap w c) as [b|]; [exists b; reflexivity|congruence]. }
  destruct (io_pp (w_ios w d)) as [a|] eqn:Ea; destruct (io_ie (w_ios w d)) as [c|] eqn:Ec; cbn [cbs_ok some] in *.
  - destruct (P a eq_refl) as [p Hp]. destruct (L c eq_refl) as [b Hb].
    pose proof (D a c eq_refl eq_refl) as Dac.
    destruct C as [-> | ->]; cbn [call_all on_erase].
    + rewrite Ea, (delete_some _ _ _ _ Hp). cbn [bind fits w_ios]. rewrite Ec.
      rewrite (delete_some _ _ b); [|cbn [w_heap]; rewrite upd_neq by congruence; exact Hb].
      cbn [bind w_heap w_next w_ios w_nios w_man w_nman w_odd]. rewrite fits_char, Nat.add_0_r.
      eexists. split; [|reflexivity]. intros x. reflexivity.
    + rewrite Ec, (delete_some _ _ _ _ Hb). cbn [bind w_ios]. rewrite Ea.
      rewrite (delete_some _ _ (BlPrinter p)); [|cbn [w_heap]; rewrite upd_neq by congruence; exact Hp].
      cbn [bind fits w_heap w_next w_ios w_nios w_man w_nman w_odd]. rewrite fits_char, Nat.add_0_r.
      eexists. split; [|reflexivity]. intros x. rewrite hfree2. reflexivity.
  - destruct (P a eq_refl) as [p Hp]. rewrite C. cbn [call_all on_erase].
    rewrite Ea, (delete_some _ _ _ _ Hp). cbn [bind fits].
    eexists. split; [|reflexivity]. intros x. reflexivity.
  - destruct (L c eq_refl) as [b Hb]. rewrite C. cbn [call_all on_erase].
    rewrite Ec, (delete_some _ _ _ _ Hb). cbn [bind]. rewrite fits_char.
    eexists. split; [|reflexivity]. intros x. reflexivity.
  - rewrite C. cbn [call_all]. exists (w_heap w). split; [reflexivity|].
    rewrite Nat.add_0_r. destruct w; reflexivity.
Qed.

Lemma good_drop2 h n ow o1 o2 :
  Good h n ow -> o1 <> o2 ->
  Good (hfree (hfree h (ow o1)) (ow o2)) n (oput (oput ow o1 None) o2 None) /\
  (forall o', o' <> o1 -> o' <> o2 ->
   vl (hfree (hfree h (ow o1)) (ow o2)) (oput (oput ow o1 None) o2 None) o' = vl h ow o').
Proof.
  intros G N12. destruct (good_drop h n ow o1 G) as [G1 V1].
  destruct (good_drop _ _ _ o2 G1) as [G2 V2].
  rewrite oput_neq in G2, V2 by congruence.
  split; [exact G2|]. intros o' A1 A2. rewrite V2 by exact A2. apply V1. exact A1.
Qed.

Lemma vl_ext h ow h' ow' o :
  (forall a, h' a = h a) -> ow' o = ow o -> vl h' ow' o = vl h ow o.
Proof. intros H1 H2. unfold vl. rewrite H2. destruct (ow o); [apply H1|reflexivity]. Qed.

(** What [strdup] makes of what lies in memory. *)
Definition dup_of (b : block) : option block :=
  match b with
  | BlIenc l | BlStr l => match cstr l with Ok x => Some (BlStr x) | _ => None end
  | BlPrinter _ => None
  end.

(** The callbacks of a copy, on a stream that still has the other's pointers.  [ow] is
    who owns what when those are left out. *)
Lemma copy_all w d ow :
  Good (w_heap w) (w_next w) ow ->
  ow (OPp d) = None -> ow (OIe d) = None ->
  (forall o, o <> OPp d -> o <> OIe d -> own w o = ow o) ->
  cbs_ok (io_pp (w_ios w d)) (io_ie (w_ios w d)) (io_cbs (w_ios w d)) ->
  (forall a, io_pp (w_ios w d) = Some a -> exists p, w_heap w a = Some (BlPrinter p)) ->
  (forall c, io_ie (w_ios w d) = Some c -> exists b b', w_heap w c = Some b /\ dup_of b = Some b') ->
  exists w3,
    call_all (on_copyfmt d) (io_cbs (w_ios w d)) w = Ok w3 /\
    Good (w_heap w3) (w_next w3) (own w3) /\
    vl (w_heap w3) (own w3) (OPp d) = vl (w_heap w) (own w) (OPp d) /\
    vl (w_heap w3) (own w3) (OIe d) =
      match vl (w_heap w) (own w) (OIe d) with Some b => dup_of b | None => None end /\
    (forall o, o <> OPp d -> o <> OIe d -> vl (w_heap w3) (own w3) o = vl (w_heap w) ow o) /\
    (forall s, s <> d -> w_ios w3 s = w_ios w s) /\
    io_open (w_ios w3 d) = io_open (w_ios w d) /\
    cbs_ok (io_pp (w_ios w3 d)) (io_ie (w_ios w3 d)) (io_cbs (w_ios w3 d)) /\
    (w_nios w3 = w_nios w /\ w_man w3 = w_man w /\ w_nman w3 = w_nman w /\ w_odd w3 = w_odd w).
Proof.
  intros G E1 E2 Ho C HP HI.
  assert (F : forall a b, w_heap w a = Some b -> a <> w_next w).
  { intros a b H ->. assert (H1 : w_heap w (w_next w) <> None) by congruence.
    pose proof (g_fresh _ _ _ G _ H1). lia. }
  destruct (io_pp (w_ios w d)) as [a|] eqn:Ea; destruct (io_ie (w_ios w d)) as [c|] eqn:Ec; cbn [cbs_ok] in C.
  - destruct (HP a eq_refl) as [p Hp]. destruct (HI c eq_refl) as (b & b' & Hb & Hd).
    assert (Hdup : exists l x, (b = BlIenc l \/ b = BlStr l) /\ cstr l = Ok x /\ b' = BlStr x).
    { destruct b as [q|l|l]; cbn [dup_of] in Hd; [discriminate| |];
        destruct (cstr l) as [x| | |] eqn:Ex; try discriminate; injection Hd as <-; exists l, x; auto. }
    destruct Hdup as (l & x & Hbl & Hx & ->).
    destruct C as [C | C]; rewrite C; cbn [call_all].
    + unfold on_copyfmt at 1. rewrite Ea, Hp. cbn [alloc bind].
      unfold on_copyfmt. cbn [set_ios w_ios w_heap]. rewrite upd_eq. cbn [io_ie]. rewrite Ec.
      rewrite upd_neq by exact (F _ _ Hb). rewrite Hb.
      destruct (good_put _ _ ow (OPp d) (BlPrinter (clone p)) G E1) as (G1 & V1 & V1').
      assert (E2' : oput ow (OPp d) (Some (w_next w)) (OIe d) = None) by (rewrite oput_neq by discriminate; exact E2).
      destruct (good_put _ _ _ (OIe d) (BlStr x) G1 E2') as (G2 & V2 & V2').
      assert (R : (match b with
                   | BlPrinter _ => UB Dangling
                   | BlIenc l0 | BlStr l0 => let* x0 := cstr l0 in Ok x0
                   end) = Ok x) by (destruct Hbl as [-> | ->]; rewrite Hx; reflexivity).
      eexists. split; [destruct Hbl as [-> | ->]; rewrite Hx; cbn [bind alloc]; reflexivity|].
      cbn [w_heap w_next w_ios w_nios w_man w_nman w_odd set_ios].
      match goal with |- Good _ _ ?o /\ _ => set (ow3 := o) end.
      assert (Eo : forall o, ow3 o = oput (oput ow (OPp d) (Some (w_next w))) (OIe d) (Some (S (w_next w))) o).
      { intros o. unfold ow3, own, set_ios. cbn [w_ios w_man io_pp io_ie io_open io_cbs]. unfold oput, upd.
        destruct (owner_eq_dec o (OIe d)) as [-> | N1].
        - cbv beta iota. rewrite Nat.eqb_refl. reflexivity.
        - destruct (owner_eq_dec o (OPp d)) as [-> | N2].
          + cbv beta iota. rewrite !Nat.eqb_refl. reflexivity.
          + rewrite <- (Ho o N2 N1). destruct o as [s|s|m]; cbn [own]; cbv beta iota; try reflexivity;
              (destruct (Nat.eqb_spec s d); [congruence|reflexivity]). }
      split; [apply (good_ext _ _ _ _ _ G2); [reflexivity|exact Eo]|].
      split; [|split; [|split; [|split; [|split; [|split]]]]].
      * rewrite (vl_ext _ _ _ _ (OPp d) (fun _ => eq_refl) (Eo (OPp d))).
        rewrite V2' by discriminate. rewrite V1. unfold vl, own. rewrite Ea, Hp. destruct p; reflexivity.
      * rewrite (vl_ext _ _ _ _ (OIe d) (fun _ => eq_refl) (Eo (OIe d))).
        rewrite V2. unfold vl, own. rewrite Ec, Hb. symmetry. exact Hd.
      * intros o A1 A2. rewrite (vl_ext _ _ _ _ o (fun _ => eq_refl) (Eo o)).
        rewrite V2' by exact A2. apply V1'. exact A1.
      * intros s Ns. rewrite !upd_neq by exact Ns. reflexivity.
      * rewrite upd_eq. reflexivity.
      * rewrite !upd_eq. cbn [io_pp io_ie io_cbs cbs_ok]. left. exact C.
      * repeat split.
    + unfold on_copyfmt at 1. rewrite Ec, Hb.
      assert (Q : (match b with
                   | BlPrinter _ => UB Dangling
                   | BlIenc l0 | BlStr l0 =>
                       let* x0 := cstr l0 in
                       let '(n, w1) := alloc (BlStr x0) w in
                       Ok (set_ios d (mkIos (io_open (w_ios w d)) (io_pp (w_ios w d)) (Some n) (io_cbs (w_ios w d))) w1)
                   end) =
                  Ok (set_ios d (mkIos (io_open (w_ios w d)) (io_pp (w_ios w d)) (Some (w_next w)) (io_cbs (w_ios w d)))
                              (snd (alloc (BlStr x) w)))).
      { destruct Hbl as [-> | ->]; rewrite Hx; reflexivity. }
      rewrite Q. cbn [bind alloc snd]. clear Q.
      unfold on_copyfmt. cbn [set_ios w_ios w_heap]. rewrite upd_eq. cbn [io_pp io_ie io_open io_cbs]. rewrite Ea.
      rewrite upd_neq by exact (F _ _ Hp). rewrite Hp. cbn [alloc bind].
      destruct (good_put _ _ ow (OIe d) (BlStr x) G E2) as (G1 & V1 & V1').
      assert (E2' : oput ow (OIe d) (Some (w_next w)) (OPp d) = None) by (rewrite oput_neq by discriminate; exact E1).
      destruct (good_put _ _ _ (OPp d) (BlPrinter (clone p)) G1 E2') as (G2 & V2 & V2').
      eexists. split; [reflexivity|].
      cbn [w_heap w_next w_ios w_nios w_man w_nman w_odd set_ios].
      match goal with |- Good _ _ ?o /\ _ => set (ow3 := o) end.
      assert (Eo : forall o, ow3 o = oput (oput ow (OIe d) (Some (w_next w))) (OPp d) (Some (S (w_next w))) o).
      { intros o. unfold ow3, own, set_ios. cbn [w_ios w_man io_pp io_ie io_open io_cbs]. unfold oput, upd.
        destruct (owner_eq_dec o (OPp d)) as [-> | N1].
        - cbv beta iota. rewrite Nat.eqb_refl. reflexivity.
        - destruct (owner_eq_dec o (OIe d)) as [-> | N2].
          + cbv beta iota. rewrite !Nat.eqb_refl. reflexivity.
          + rewrite <- (Ho o N1 N2). destruct o as [s|s|m]; cbn [own]; cbv beta iota; try reflexivity;
              (destruct (Nat.eqb_spec s d); [congruence|reflexivity]). }
      split; [apply (good_ext _ _ _ _ _ G2); [reflexivity|exact Eo]|].
      split; [|split; [|split; [|split; [|split; [|split]]]]].
      * rewrite (vl_ext _ _ _ _ (OPp d) (fun _ => eq_refl) (Eo (OPp d))).
        rewrite V2. unfold vl, own. rewrite Ea, Hp. destruct p; reflexivity.
      * rewrite (vl_ext _ _ _ _ (OIe d) (fun _ => eq_refl) (Eo (OIe d))).
        rewrite V2' by discriminate. rewrite V1. unfold vl, own. rewrite Ec, Hb. symmetry. exact Hd.
      * intros o A1 A2. rewrite (vl_ext _ _ _ _ o (fun _ => eq_refl) (Eo o)).
        rewrite V2' by exact A1. apply V1'. exact A2.
      * intros s Ns. rewrite !upd_neq by exact Ns. reflexivity.
      * rewrite upd_eq. reflexivity.
      * rewrite !upd_eq. cbn [io_pp io_ie io_cbs cbs_ok]. right. exact C.
      * repeat split.
  - destruct (HP a eq_refl) as [p Hp]. rewrite C. cbn [call_all].
    unfold on_copyfmt. rewrite Ea, Hp. cbn [alloc bind].
    destruct (good_put _ _ ow (OPp d) (BlPrinter (clone p)) G E1) as (G1 & V1 & V1').
    eexists. split; [reflexivity|].
    cbn [w_heap w_next w_ios w_nios w_man w_nman w_odd set_ios].
    match goal with |- Good _ _ ?o /\ _ => set (ow3 := o) end.
    assert (Eo : forall o, ow3 o = oput ow (OPp d) (Some (w_next w)) o).
    { intros o. unfold ow3, own, set_ios. cbn [w_ios w_man io_pp io_ie io_open io_cbs]. unfold oput, upd.
      destruct (owner_eq_dec o (OPp d)) as [-> | N2].
      - cbv beta iota. rewrite !Nat.eqb_refl. reflexivity.
      - destruct (owner_eq_dec o (OIe d)) as [-> | N1].
        + cbv beta iota. rewrite Nat.eqb_refl. cbn [io_ie]. rewrite E2. exact Ec.
        + rewrite <- (Ho o N2 N1). destruct o as [s|s|m]; cbn [own]; cbv beta iota; try reflexivity;
            (destruct (Nat.eqb_spec s d); [congruence|reflexivity]). }
    split; [apply (good_ext _ _ _ _ _ G1); [reflexivity|exact Eo]|].
    split; [|split; [|split; [|split; [|split; [|split]]]]].
    + rewrite (vl_ext _ _ _ _ (OPp d) (fun _ => eq_refl) (Eo (OPp d))).
      rewrite V1. unfold vl, own. rewrite Ea, Hp. destruct p; reflexivity.
    + rewrite (vl_ext _ _ _ _ (OIe d) (fun _ => eq_refl) (Eo (OIe d))).
      rewrite V1' by discriminate. unfold vl, own. rewrite Ec, E2. reflexivity.
    + intros o A1 A2. rewrite (vl_ext _ _ _ _ o (fun _ => eq_refl) (Eo o)). apply V1'. exact A1.
    + intros s Ns. rewrite !upd_neq by exact Ns. reflexivity.
    + rewrite upd_eq. reflexivity.
    + rewrite !upd_eq. cbn [io_pp io_ie io_cbs]. rewrite Ec. exact C.
    + repeat split.
  - destruct (HI c eq_refl) as (b & b' & Hb & Hd).
    assert (Hdup : exists l x, (b = BlIenc l \/ b = BlStr l) /\ cstr l = Ok x /\ b' = BlStr x).
    { destruct b as [q|l|l]; cbn [dup_of] in Hd; [discriminate| |];
        destruct (cstr l) as [x| | |] eqn:Ex; try discriminate; injection Hd as <-; exists l, x; auto. }
    destruct Hdup as (l & x & Hbl & Hx & ->).
    rewrite C. cbn [call_all]. unfold on_copyfmt. rewrite Ec, Hb.
    destruct (good_put _ _ ow (OIe d) (BlStr x) G E2) as (G1 & V1 & V1').
    eexists. split; [destruct Hbl as [-> | ->]; rewrite Hx; cbn [bind alloc]; reflexivity|].
    cbn [w_heap w_next w_ios w_nios w_man w_nman w_odd set_ios].
    match goal with |- Good _ _ ?o /\ _ => set (ow3 := o) end.
    assert (Eo : forall o, ow3 o = oput ow (OIe d) (Some (w_next w)) o).
    { intros o. unfold ow3, own, set_ios. cbn [w_ios w_man io_pp io_ie io_open io_cbs]. unfold oput, upd.
      destruct (owner_eq_dec o (OIe d)) as [-> | N2].
      - cbv beta iota. rewrite !Nat.eqb_refl. reflexivity.
      - destruct (owner_eq_dec o (OPp d)) as [-> | N1].
        + cbv beta iota. rewrite Nat.eqb_refl. cbn [io_pp]. rewrite E1. exact Ea.
        + rewrite <- (Ho o N1 N2). destruct o as [s|s|m]; cbn [own]; cbv beta iota; try reflexivity;
            (destruct (Nat.eqb_spec s d); [congruence|reflexivity]). }
    split; [apply (good_ext _ _ _ _ _ G1); [reflexivity|exact Eo]|].
    split; [|split; [|split; [|split; [|split; [|split]]]]].
    + rewrite (vl_ext _ _ _ _ (OPp d) (fun _ => eq_refl) (Eo (OPp d))).
      rewrite V1' by discriminate. unfold vl, own. rewrite Ea, E1. reflexivity.
    + rewrite (vl_ext _ _ _ _ (OIe d) (fun _ => eq_refl) (Eo (OIe d))).
      rewrite V1. unfold vl, own. rewrite Ec, Hb. symmetry. exact Hd.
    + intros o A1 A2. rewrite (vl_ext _ _ _ _ o (fun _ => eq_refl) (Eo o)). apply V1'. exact A2.
    + intros s Ns. rewrite !upd_neq by exact Ns. reflexivity.
    + rewrite upd_eq. reflexivity.
    + rewrite !upd_eq. cbn [io_pp io_ie io_cbs]. rewrite Ea. exact C.
    + repeat split.
  - rewrite C. cbn [call_all]. exists w. split; [reflexivity|].
    assert (Eo : forall o, own w o = ow o).
    { intros o. destruct (owner_eq_dec o (OPp d)) as [-> | N1]; [cbn [own]; congruence|].
      destruct (owner_eq_dec o (OIe d)) as [-> | N2]; [cbn [own]; congruence|]. apply Ho; assumption. }
    split; [apply (good_ext _ _ _ _ _ G); [reflexivity|exact Eo]|].
    split; [reflexivity|]. split; [unfold vl, own; rewrite Ec; reflexivity|].
    split; [intros o A1 A2; apply vl_ext; [reflexivity|apply Eo]|].
    split; [reflexivity|]. split; [reflexivity|]. split; [|repeat split].
    rewrite Ea, Ec. exact C.
Qed.
