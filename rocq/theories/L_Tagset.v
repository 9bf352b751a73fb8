(** * Lemmas: sizes, writing and padding of tags of any version. *)
From Verif Require Import Base M_Ints M_Unsync M_Stream M_Payload M_Frame M_Tag22 M_Tag23 M_Tag24 M_Read M_Fs M_Tagset
  S_Ints S_Stream S_Tag S_Tag23 S_Tag24 S_Tagset
  L_Ints L_Frame L_Tag23 L_Tag23b L_Tag23c L_Tag23d L_Tag23e L_Tag22 L_Tag24 L_Tag24b.

Notation set_pad := any_set_padding.

Lemma set_pad_same t : set_pad t (any_padding t) = t.
Proof. destruct t as [[]|[]|[]]; reflexivity. Qed.
Lemma set_pad_set t p q : set_pad (set_pad t p) q = set_pad t q.
Proof. destruct t as [[]|[]|[]]; reflexivity. Qed.
Lemma pad_set t p : any_padding (set_pad t p) = p.
Proof. destruct t as [[]|[]|[]]; reflexivity. Qed.
Lemma sound_set t p : sound_tag (set_pad t p) <-> sound_tag t.
Proof. destruct t as [[]|[]|[]]; reflexivity. Qed.
Lemma simple_set t p : simple_tag (set_pad t p) <-> simple_tag t.
Proof. destruct t as [[]|[]|[]]; reflexivity. Qed.
Lemma simple_sound t : simple_tag t -> sound_tag t.
Proof. destruct t; cbn; tauto. Qed.

(** How often the padding counts. *)
Definition mult (t : anytag) : N := match t with A24 _ => 2 | _ => 1 end.

(** ** Plain extended headers *)
Definition ext_fresh (x : option ext23) : Prop := match x with Some y => x_dirty y = false | None => True end.
Notation fresh_ext := (option_map ext_refresh).
Definition ext_syncs (x : option ext23) : bool := match x with Some y => negb (x_syncs y =? 0) | None => false end.
Definition ext_len (u : bool) (x : option ext23) : N := match x with Some y => len (ext_serialized23 u y) | None => 0 end.

Lemma prep_plain z t : ext_plain (t3_ext t) ->
  prep_ext z t = Ok (mkTag23 (t3_unsync t) (t3_exp t) (fresh_ext (t3_ext t)) (t3_pad t) (t3_frames t)).
Proof.
  destruct t as [f1 f2 [x|] f3 f4]; unfold prep_ext; cbn [t3_unsync t3_exp t3_ext t3_pad t3_frames option_map];
    [intros (H & _); now rewrite H|reflexivity].
Qed.
Lemma plain_rel x y : ext_rel x y -> ext_plain x -> ext_plain y /\ same_ext x y /\ ext_fresh y.
Proof.
  destruct x as [x|], y as [y|]; cbn [ext_rel ext_plain same_ext ext_fresh]; try tauto.
  intros (E1 & E2 & E3 & E4) (H1 & H2 & H3). rewrite H1 in E2. destruct (x_crc y) as [c|] eqn:Ec; [discriminate|].
  split; [|repeat split; congruence]. split; [reflexivity|]. split; [|intros _; exact (E4 H3 E3)].
  unfold ext_unaffected, ext_wire23, ext_size23 in *. rewrite Ec, E1. now rewrite H1 in H2.
Qed.
Lemma refresh_rel x : ext_rel x (fresh_ext x).
Proof.
  destruct x as [x|]; cbn [option_map ext_rel]; [|exact Logic.I]. destruct (ext_refresh_spec x) as (R1 & R2 & R3 & R4).
  repeat split; try assumption; [now rewrite R2|now apply R4..].
Qed.
Lemma fresh_ext_fresh x : ext_fresh x -> fresh_ext x = x.
Proof. destruct x as [x|]; cbn; [|auto]. intros H. now rewrite ext_refresh_clean. Qed.
Lemma plain_written u v x : ext_plain x -> ext_fresh x ->
  len (match x with Some y => ext_written23 u y | None => [] end) = ext_len v x.
Proof.
  destruct x as [x|]; [|reflexivity]. cbn [ext_plain ext_fresh ext_len]. intros (_ & Hu & H) D. destruct (H D) as [P1 P2].
  unfold ext_written23, ext_serialized23. rewrite P1, P2. rewrite unaffected_unsync by (auto using ext_wire_bytes).
  now destruct u, v.
Qed.

(** ** Serialized frames stay *)
Definition all_clean (t : anytag) : Prop :=
  match t with A22 t => Forall clean (t2_frames t) | A23 t => Forall clean (t3_frames t) /\ ext_fresh (t3_ext t) | A24 t => Forall clean (t4_frames t) end.

Definition syncs_in (c : cframe) : bool := negb (c_syncs c =? 0).

Lemma frames_need_c_cons wire b c d r : frames_need_c wire b (c :: d :: r) =
  let* c' := refresh wire false c in
  if negb (c_syncs c' =? 0) then Ok (true, c' :: d :: r)
  else let* (v, r') := frames_need_c wire b (d :: r) in Ok (v, c' :: r').
Proof. reflexivity. Qed.

Lemma frames_need_clean wire b l : Forall clean l -> frames_need_c wire b l = Ok (existsb syncs_in l, l).
Proof.
  induction 1 as [|c r Hc Hr IH]; [reflexivity|]. destruct r as [|d r].
  - cbn [frames_need_c]. rewrite refresh_clean by exact Hc. cbn [bind existsb]. fold (syncs_in c). now rewrite orb_false_r.
  - rewrite frames_need_c_cons, refresh_clean by exact Hc. cbn [bind]. fold (syncs_in c). cbn [existsb].
    destruct (syncs_in c); [reflexivity|]. rewrite IH. reflexivity.
Qed.
Lemma all_need_clean wire l : Forall clean l -> all_need_c wire l = Ok (forallb syncs_in l, l).
Proof.
  induction 1 as [|c r Hc Hr IH]; [reflexivity|]. cbn [all_need_c forallb]. rewrite refresh_clean by exact Hc.
  cbn [bind]. unfold syncs_in at 1. destruct (c_syncs c =? 0); [reflexivity|]. rewrite IH. reflexivity.
Qed.

Lemma map_refresh_keeps wire l : forall l', map_refresh wire l = Ok l' -> forall c, In c l -> clean c -> In c l'.
Proof.
  induction l as [|x r IH]; intros l' H c Hi Hc; [elim Hi|]. cbn [map_refresh] in H.
  apply bind_ok in H as (x' & Hx & H). apply bind_ok in H as (r' & Hr & H). apply Ok_inj in H. subst l'.
  destruct Hi as [->|Hi]; [left|right; eauto]. rewrite refresh_clean in Hx by exact Hc. now apply Ok_inj in Hx.
Qed.
Lemma refresh_all_keeps wire b l : forall l', refresh_all wire b l = Ok l' -> forall c, In c l -> clean c -> In c l'.
Proof.
  induction l as [|x r IH]; intros l' H c Hi Hc; [elim Hi|]. destruct r as [|d r].
  - cbn [refresh_all] in H. apply bind_ok in H as (x' & Hx & H). apply Ok_inj in H. subst l'.
    destruct Hi as [->|[]]. left. rewrite refresh_clean in Hx by exact Hc. now apply Ok_inj in Hx.
  - rewrite refresh_all_cons in H. apply bind_ok in H as (x' & Hx & H). apply bind_ok in H as (r' & Hr & H).
    apply Ok_inj in H. subst l'. destruct Hi as [->|Hi]; [left|right; eauto].
    rewrite refresh_clean in Hx by exact Hc. now apply Ok_inj in Hx.
Qed.

(** What the answer rests on. *)
Lemma frames_need_why wire b l : forall v l1, frames_need_c wire b l = Ok (v, l1) ->
  if v then exists c, In c l1 /\ clean c /\ syncs_in c = true
  else Forall (fun c => clean c /\ syncs_in c = false) l1.
Proof.
  induction l as [|c r IH]; intros v l1 H.
  - apply Ok_inj in H. injection H as <- <-. constructor.
  - destruct r as [|d r].
    + cbn [frames_need_c] in H. apply bind_ok in H as (c' & Hc & H). apply Ok_inj in H. injection H as Hv <-.
      destruct (refresh_spec wire _ _ _ Hc) as (_ & E2 & _). fold (syncs_in c') in Hv.
      destruct v; [exists c'; repeat split; auto; now left|]. constructor; [split; auto|constructor].
    + rewrite frames_need_c_cons in H. apply bind_ok in H as (c' & Hc & H).
      destruct (refresh_spec wire _ _ _ Hc) as (_ & E2 & _). fold (syncs_in c') in H.
      destruct (syncs_in c') eqn:Es.
      * apply Ok_inj in H. injection H as <- <-. exists c'. repeat split; auto. now left.
      * apply bind_ok in H as ([v' r'] & Hr & H). apply Ok_inj in H. injection H as <- <-.
        specialize (IH _ _ Hr). destruct v'.
        -- destruct IH as (x & Hi & Hx & Hsx). exists x. repeat split; auto. now right.
        -- constructor; auto.
Qed.
Lemma all_need_why wire l : forall v l1, all_need_c wire l = Ok (v, l1) ->
  if v then Forall (fun c => clean c /\ syncs_in c = true) l1
  else exists c, In c l1 /\ clean c /\ syncs_in c = false.
Proof.
  induction l as [|c r IH]; intros v l1 H.
  - apply Ok_inj in H. injection H as <- <-. constructor.
  - cbn [all_need_c] in H. apply bind_ok in H as (c' & Hc & H).
    destruct (refresh_spec wire _ _ _ Hc) as (_ & E2 & _).
    destruct (c_syncs c' =? 0) eqn:Es.
    + apply Ok_inj in H. injection H as <- <-. exists c'. repeat split; auto; [now left|]. unfold syncs_in. now rewrite Es.
    + apply bind_ok in H as ([v' r'] & Hr & H). apply Ok_inj in H. injection H as <- <-.
      assert (Hs : syncs_in c' = true) by (unfold syncs_in; now rewrite Es).
      specialize (IH _ _ Hr). destruct v'; [constructor; auto|].
      destruct IH as (x & Hi & Hx & Hsx). exists x. repeat split; auto. now right.
Qed.

Lemma existsb_why (l1 l2 : list cframe) v : (forall c, In c l1 -> clean c -> In c l2) ->
  (Forall clean l1 -> l2 = l1) ->
  (if v : bool then exists c, In c l1 /\ clean c /\ syncs_in c = true
   else Forall (fun c => clean c /\ syncs_in c = false) l1) -> existsb syncs_in l2 = v.
Proof.
  intros Hk He H. destruct v.
  - destruct H as (c & Hi & Hc & Hs). apply existsb_exists. eauto.
  - rewrite He by (eapply Forall_impl; [|exact H]; intros ? [? _]; assumption).
    clear Hk He. induction H as [|c r [_ Hs] _ IH]; [reflexivity|]. cbn [existsb]. now rewrite Hs.
Qed.
Lemma forallb_why (l1 l2 : list cframe) v : (forall c, In c l1 -> clean c -> In c l2) ->
  (Forall clean l1 -> l2 = l1) ->
  (if v : bool then Forall (fun c => clean c /\ syncs_in c = true) l1
   else exists c, In c l1 /\ clean c /\ syncs_in c = false) -> forallb syncs_in l2 = v.
Proof.
  intros Hk He H. destruct v.
  - rewrite He by (eapply Forall_impl; [|exact H]; intros ? [? _]; assumption).
    clear Hk He. induction H as [|c r [_ Hs] _ IH]; [reflexivity|]. cbn [forallb]. now rewrite Hs.
  - destruct H as (c & Hi & Hc & Hs). apply not_true_is_false. intros F. rewrite forallb_forall in F.
    rewrite (F c) in Hs by auto. discriminate.
Qed.

Lemma prep_none z t : t3_ext t = None -> prep_ext z t = Ok t.
Proof. intros H. unfold prep_ext. now rewrite H. Qed.

(** ** The tag that [probe] leaves *)

(** Its frames are serialized, and it answers as before. *)
Definition settled (z : zlib) (m : apply_unsync) (u : bool) (t : anytag) : Prop :=
  sound_tag t /\ all_clean t /\ forall p, compute_apply_unsync z m (set_pad t p) = Ok (u, set_pad t p).

Lemma clean_needs z t : sound_tag t -> all_clean t ->
  any_needs z t = Ok (match t with A22 t => existsb syncs_in (t2_frames t) | A23 t => ext_syncs (t3_ext t) || existsb syncs_in (t3_frames t)
                      | A24 t => forallb syncs_in (t4_frames t) end, t).
Proof.
  destruct t as [t|t|t]; cbn [sound_tag all_clean any_needs]; intros Hs Hc.
  - rewrite frames_need_clean by exact Hc. cbn [bind]. now destruct t.
  - destruct Hc as [Hc Hx]. rewrite prep_plain by exact Hs. rewrite fresh_ext_fresh by exact Hx. cbn [bind t3_ext t3_pad t3_frames].
    fold (ext_syncs (t3_ext t)). destruct (ext_syncs (t3_ext t)); [now destruct t|].
    rewrite frames_need_clean by exact Hc. cbn [bind]. now destruct t.
  - rewrite all_need_clean by exact Hc. cbn [bind]. now destruct t.
Qed.
Lemma clean_needs_pad z t p : sound_tag t -> all_clean t ->
  any_needs z (set_pad t p) = Ok (match t with A22 t => existsb syncs_in (t2_frames t) | A23 t => ext_syncs (t3_ext t) || existsb syncs_in (t3_frames t)
                      | A24 t => forallb syncs_in (t4_frames t) end, set_pad t p).
Proof.
  intros Hs Hc. rewrite clean_needs; [now destruct t as [[]|[]|[]]| |now destruct t as [[]|[]|[]]].
  now apply sound_set.
Qed.

(** Only caches change. *)
Definition same_but_caches (t t' : anytag) : Prop :=
  match t, t' with
  | A22 a, A22 b => t2_unsync b = t2_unsync a /\ t2_comp b = t2_comp a /\ t2_pad b = t2_pad a /\
                    map c_frame (t2_frames b) = map c_frame (t2_frames a)
  | A23 a, A23 b => t3_unsync b = t3_unsync a /\ t3_exp b = t3_exp a /\ t3_pad b = t3_pad a /\ ext_plain (t3_ext a) /\
                    ext_plain (t3_ext b) /\ same_ext (t3_ext a) (t3_ext b) /\ map c_frame (t3_frames b) = map c_frame (t3_frames a)
  | A24 a, A24 b => t4_unsync b = t4_unsync a /\ t4_exp b = t4_exp a /\ t4_foot b = t4_foot a /\ t4_ext b = t4_ext a /\
                    t4_pad b = t4_pad a /\ map c_frame (t4_frames b) = map c_frame (t4_frames a)
  | _, _ => False
  end.

Lemma frames_need_frames wire b l : forall v l1, frames_need_c wire b l = Ok (v, l1) -> map c_frame l1 = map c_frame l.
Proof.
  induction l as [|c r IH]; intros v l1 H; [apply Ok_inj in H; now injection H as _ <-|].
  destruct r as [|d r].
  - cbn [frames_need_c] in H. apply bind_ok in H as (c' & Hc & H). apply Ok_inj in H. injection H as _ <-.
    destruct (refresh_spec wire _ _ _ Hc) as (E & _). cbn [map]. now rewrite E.
  - rewrite frames_need_c_cons in H. apply bind_ok in H as (c' & Hc & H).
    destruct (refresh_spec wire _ _ _ Hc) as (E & _). destruct (negb _).
    + apply Ok_inj in H. injection H as _ <-. cbn [map]. now rewrite E.
    + apply bind_ok in H as ([v' r'] & Hr & H). apply Ok_inj in H. injection H as _ <-.
      specialize (IH _ _ Hr). cbn [map] in *. now rewrite E, IH.
Qed.
Lemma all_need_frames wire l : forall v l1, all_need_c wire l = Ok (v, l1) -> map c_frame l1 = map c_frame l.
Proof.
  induction l as [|c r IH]; intros v l1 H; [apply Ok_inj in H; now injection H as _ <-|].
  cbn [all_need_c] in H. apply bind_ok in H as (c' & Hc & H).
  destruct (refresh_spec wire _ _ _ Hc) as (E & _). destruct (_ =? 0).
  - apply Ok_inj in H. injection H as _ <-. cbn [map]. now rewrite E.
  - apply bind_ok in H as ([v' r'] & Hr & H). apply Ok_inj in H. injection H as _ <-.
    specialize (IH _ _ Hr). cbn [map] in *. now rewrite E, IH.
Qed.

Lemma same_ext_refl x : same_ext x x.
Proof. destruct x; cbn; auto. Qed.
Lemma same_ext_trans x y z : same_ext x y -> same_ext y z -> same_ext x z.
Proof. destruct x, y, z; cbn; try tauto. intros (A & B) (C & D). split; congruence. Qed.
Lemma same_trans a b c : same_but_caches a b -> same_but_caches b c -> same_but_caches a c.
Proof.
  destruct a, b, c; cbn [same_but_caches]; try tauto; intros H1 H2;
    repeat match goal with H : _ /\ _ |- _ => destruct H end; repeat split; try congruence; eauto using same_ext_trans.
Qed.
Lemma same_refl a : sound_tag a -> same_but_caches a a.
Proof. destruct a; cbn [sound_tag same_but_caches]; auto 10 using same_ext_refl. Qed.

Lemma needs_same z t u t1 : sound_tag t -> any_needs z t = Ok (u, t1) -> same_but_caches t t1.
Proof.
  destruct t as [t|t|t]; cbn [sound_tag any_needs]; intros Hs H.
  - apply bind_ok in H as ([v fs] & Hf & H). apply Ok_inj in H. injection H as _ <-. cbn.
    repeat split. now apply frames_need_frames in Hf.
  - rewrite prep_plain in H by exact Hs. cbn [bind t3_ext t3_pad t3_frames t3_unsync t3_exp] in H.
    destruct (plain_rel _ _ (refresh_rel (t3_ext t)) Hs) as (P1 & P2 & _).
    fold (ext_syncs (fresh_ext (t3_ext t))) in H. destruct (ext_syncs (fresh_ext (t3_ext t))).
    + apply Ok_inj in H. injection H as _ <-. cbn [same_but_caches t3_unsync t3_exp t3_pad t3_ext t3_frames]. auto 10.
    + apply bind_ok in H as ([v fs] & Hf & H). apply Ok_inj in H. injection H as _ <-.
      apply frames_need_frames in Hf. cbn [same_but_caches t3_unsync t3_exp t3_pad t3_ext t3_frames]. auto 10.
  - apply bind_ok in H as ([v fs] & Hf & H). apply Ok_inj in H. injection H as _ <-. cbn.
    repeat split. now apply all_need_frames in Hf.
Qed.

Lemma size_same z t u n t1 : sound_tag t -> any_size z t u = Ok (n, t1) -> same_but_caches t t1 /\ all_clean t1.
Proof.
  destruct t as [t|t|t]; cbn [sound_tag any_size]; intros Hs H;
    apply bind_ok in H as ([n' t'] & Hz & H); apply Ok_inj in H; injection H as <- <-; cbn.
  - apply size22_inv in Hz as (? & ? & ? & (? & ? & _) & _). auto.
  - apply size23_inv in Hz as (? & ? & ? & (? & ? & _) & Hx & _).
    destruct (plain_rel _ _ Hx Hs) as (P1 & P2 & P3). auto 12.
  - apply size24_inv in Hz as (? & ? & ? & ? & ? & (? & ? & _) & _). auto 8.
Qed.

Lemma sound_same a b : same_but_caches a b -> sound_tag a -> sound_tag b.
Proof. destruct a, b; cbn [same_but_caches sound_tag]; try tauto. intros (_ & _ & _ & E & _). now rewrite E. Qed.
Lemma pad_same a b : same_but_caches a b -> any_padding b = any_padding a.
Proof. destruct a, b; cbn; tauto. Qed.
Lemma simple_same a b : same_but_caches a b -> simple_tag a -> simple_tag b.
Proof. destruct a, b; cbn; tauto. Qed.
Lemma mult_same a b : same_but_caches a b -> mult b = mult a.
Proof. destruct a, b; cbn; tauto. Qed.
Lemma flags_same a b : same_but_caches a b ->
  match a, b with A22 a, A22 b => flags22 b = flags22 a | A23 a, A23 b => flags23 b = flags23 a
  | A24 a, A24 b => flags24 b = flags24 a | _, _ => False end.
Proof.
  destruct a, b; cbn; try tauto; intros H; repeat match goal with H : _ /\ _ |- _ => destruct H end.
  - unfold flags22. now rewrite H, H0.
  - unfold flags23. rewrite H, H0. destruct (t3_ext t), (t3_ext t0); try reflexivity; now elim H4.
  - unfold flags24. now rewrite H, H0, H1, H2.
Qed.

(** The answer of [needs_unsynchronisation] stays the same. *)
Lemma probe_settled z m t n t1 : sound_tag t -> probe z m t = Ok (n, t1) ->
  exists u, settled z m u t1 /\ same_but_caches t t1 /\
    (exists t0, compute_apply_unsync z m t = Ok (u, t0) /\ same_but_caches t t0 /\ any_size z t0 u = Ok (n, t1)).
Proof.
  unfold probe. intros Hs H. apply bind_ok in H as ([u t0] & Hu & H). exists u.
  assert (H0 : same_but_caches t t0).
  { destruct m; cbn in Hu; [apply Ok_inj in Hu; injection Hu as _ <-; now apply same_refl|
      apply Ok_inj in Hu; injection Hu as _ <-; now apply same_refl|now apply needs_same in Hu]. }
  assert (Hs0 := sound_same _ _ H0 Hs).
  destruct (size_same z t0 u n t1 Hs0 H) as [H1 Hcl].
  assert (Hs1 := sound_same _ _ H1 Hs0).
  split; [|split; [now apply (same_trans t t0)|eauto]].
  split; [exact Hs1|]. split; [exact Hcl|]. intros p.
  destruct m; cbn [compute_apply_unsync] in *.
  - apply Ok_inj in Hu. now injection Hu as <- _.
  - apply Ok_inj in Hu. now injection Hu as <- _.
  - rewrite clean_needs_pad by assumption. do 2 f_equal.
    destruct t as [t|t|t]; cbn [any_needs] in Hu.
    + apply bind_ok in Hu as ([v fs] & Hf & Hu). apply Ok_inj in Hu. injection Hu as <- <-.
      cbn [any_size] in H. apply bind_ok in H as ([n' t'] & Hz & H). apply Ok_inj in H. injection H as <- <-.
      unfold size22 in Hz. apply bind_ok in Hz as (gs & Hg & Hz). apply Ok_inj in Hz. injection Hz as _ <-.
      cbn [t2_frames] in *. apply (existsb_why fs).
      * now apply map_refresh_keeps with (1 := Hg).
      * intros Hc. rewrite map_refresh_clean in Hg by exact Hc. apply Ok_inj in Hg. now symmetry.
      * now apply frames_need_why in Hf.
    + cbn [sound_tag] in Hs. rewrite prep_plain in Hu by exact Hs. cbn [bind t3_ext t3_pad t3_frames t3_unsync t3_exp] in Hu.
      destruct (plain_rel _ _ (refresh_rel (t3_ext t)) Hs) as (P1 & _ & P3).
      fold (ext_syncs (fresh_ext (t3_ext t))) in Hu. cbn [any_size] in H. destruct (ext_syncs (fresh_ext (t3_ext t))) eqn:Es.
      { apply Ok_inj in Hu. injection Hu as <- <-. cbn [any_size] in H.
        apply bind_ok in H as ([n' t'] & Hz & H). apply Ok_inj in H. injection H as <- <-.
        unfold size23 in Hz. rewrite prep_plain in Hz by exact P1. cbn [bind t3_ext t3_pad t3_frames t3_unsync t3_exp] in Hz.
        apply bind_ok in Hz as (gs & Hg & Hz). apply Ok_inj in Hz. injection Hz as _ <-. cbn [t3_ext].
        rewrite fresh_ext_fresh by exact P3. now rewrite Es. }
      apply bind_ok in Hu as ([v fs] & Hf & Hu). apply Ok_inj in Hu. injection Hu as <- <-.
      cbn [any_size] in H. apply bind_ok in H as ([n' t'] & Hz & H). apply Ok_inj in H. injection H as <- <-.
      unfold size23 in Hz. rewrite prep_plain in Hz by exact P1. cbn [bind t3_ext t3_pad t3_frames t3_unsync t3_exp] in Hz.
      apply bind_ok in Hz as (gs & Hg & Hz). apply Ok_inj in Hz. injection Hz as _ <-.
      cbn [t3_frames t3_ext] in *. rewrite fresh_ext_fresh by exact P3. rewrite Es. cbn [orb]. apply (existsb_why fs).
      * now apply refresh_all_keeps with (1 := Hg).
      * intros Hc. rewrite refresh_all_clean in Hg by exact Hc. apply Ok_inj in Hg. now symmetry.
      * now apply frames_need_why in Hf.
    + apply bind_ok in Hu as ([v fs] & Hf & Hu). apply Ok_inj in Hu. injection Hu as <- <-.
      cbn [any_size] in H. apply bind_ok in H as ([n' t'] & Hz & H). apply Ok_inj in H. injection H as <- <-.
      unfold size24 in Hz. apply bind_ok in Hz as (gs & Hg & Hz). apply Ok_inj in Hz. injection Hz as _ <-.
      cbn [t4_frames] in *. apply (forallb_why fs).
      * now apply refresh_all_keeps with (1 := Hg).
      * intros Hc. rewrite refresh_all_clean in Hg by exact Hc. apply Ok_inj in Hg. now symmetry.
      * now apply all_need_why in Hf.
Qed.
