(** * Lemmas: unsynchronisation of the tags that are saved. *)
From Verif Require Import Base M_Ints M_Unsync M_Stream M_Payload M_Frame M_Tag22 M_Tag23 M_Tag24 M_Read M_Fs M_Tagset
  S_Ints S_Unsync S_Tag S_Tag22 S_Tag23 S_Tag24 S_Tagset S_Sync
  L_Ints L_Unsync L_Frame L_Tag23 L_Tag23b L_Tag23c L_Tag23d L_Tag23e L_Tag22 L_Tag24 L_Tag24b L_Tagset L_Saved.
#[local] Open Scope N_scope.

(** ** Neighbours *)
Fixpoint apart (n : N) (l : bytes) : Prop :=
  match l with
  | x :: ((y :: _) as r) => (x = 255 -> y <= n) /\ apart n r
  | _ => True
  end.
Lemma apart_cons n x y r : apart n (x :: y :: r) <-> (x = 255 -> y <= n) /\ apart n (y :: r).
Proof. reflexivity. Qed.
Lemma apart_tail n x r : apart n (x :: r) -> apart n r.
Proof. destruct r; [constructor|]. now intros [_ H]. Qed.
Lemma apart_upto n l : apart n l <-> ff_upto n l.
Proof.
  split.
  - intros H i. revert l H. induction i as [|i IH]; intros l H y H1 H2.
    + destruct l as [|a [|b r]]; try discriminate. injection H1 as ->. injection H2 as ->. now apply H.
    + destruct l as [|a r]; [discriminate|]. apply apart_tail in H. exact (IH r H y H1 H2).
  - induction l as [|a r IH]; intros H; [constructor|]. destruct r as [|b r]; [constructor|]. split.
    + intros ->. exact (H 0%nat b eq_refl eq_refl).
    + apply IH. intros i y. exact (H (S i) y).
Qed.
Lemma apart_app n a b : apart n a -> apart n b -> hd 0 b <= n -> apart n (a ++ b).
Proof.
  induction a as [|x a IH]; [auto|]. intros Ha Hb Hh. destruct a as [|y a].
  - cbn [app]. destruct b as [|y b]; [constructor|]. split; [intros _; exact Hh|exact Hb].
  - destruct Ha as [H1 H2]. cbn [app]. split; [exact H1|]. exact (IH H2 Hb Hh).
Qed.
Lemma apart_none n a b : Forall (fun x => x <> 255) a -> apart n b -> apart n (a ++ b).
Proof.
  intros Ha Hb. induction Ha as [|x a Hx Ha IH]; [exact Hb|]. cbn [app]. destruct (a ++ b) as [|y r]; [constructor|]. split; [congruence|exact IH].
Qed.
Lemma zeros_apart n k : apart n (repeatN 0 k).
Proof. unfold repeatN. induction (N.to_nat k) as [|j IH]; [constructor|]. cbn [repeat]. destruct (repeat 0 j); [constructor|]. split; [discriminate|exact IH]. Qed.
Lemma hd_zeros k r : hd 0 r < 128 -> hd 0 (repeatN 0 k ++ r) < 128.
Proof. unfold repeatN. destruct (N.to_nat k); [auto|]. intros _. cbn. lia. Qed.
Lemma apart_clear n l : n < 224 -> apart n l -> no_false_sync l.
Proof. intros Hn H i (H1 & y & H2 & H3). apply apart_upto in H. specialize (H i y H1 H2). lia. Qed.
Lemma unsync_apart l b : is_bytes l -> apart 223 (unsynchronise l b).
Proof. intros H. apply apart_upto. intros i y H1 H2. pose proof (unsync_no_false_sync l b i H) as X. destruct (N.le_gt_cases y 223); [lia|]. elim X. split; [exact H1|]. exists y. split; [exact H2|lia]. Qed.
Lemma count_apart l : count_syncs l true = 0 <-> apart 233 l.
Proof.
  induction l as [|x r IH]; [split; [constructor|reflexivity]|]. destruct r as [|y r]; [split; [constructor|reflexivity]|].
  rewrite apart_cons. change (count_syncs (x :: y :: r) true) with ((if is_false_sync x y then 1 else 0) + count_syncs (y :: r) true).
  unfold is_false_sync. destruct (N.eqb_spec 255 x) as [<-|E]; destruct (N.ltb_spec 233 y) as [L|L]; cbn [andb];
    (split; [intros H; split; [intros; lia|apply IH; lia]|intros [H1 H2]; apply IH in H2; try lia]).
Qed.
Lemma false_sync_in p w q i : false_sync_at w i -> exists j, false_sync_at (p ++ w ++ q) j.
Proof.
  intros (H1 & y & H2 & H3). exists (length p + i)%nat.
  assert (X : forall k v, nth_error w k = Some v -> nth_error (p ++ w ++ q) (length p + k) = Some v).
  { intros k v Hk. rewrite nth_error_app2 by apply Nat.le_add_r. replace (length p + k - length p)%nat with k by (clear; lia).
    rewrite nth_error_app1; [exact Hk|]. apply nth_error_Some. congruence. }
  split; [now apply X|]. exists y. split; [|exact H3]. rewrite <- Nat.add_succ_r. now apply X.
Qed.

(** ** Caches *)
Lemma intact_refresh wire (ok : frame -> Prop) b c c' : refresh wire b c = Ok c' ->
  ok (c_frame c) /\ (c_dirty c = true \/ exists last, refresh wire last (new_frame (c_frame c)) = Ok c) ->
  ok (c_frame c') /\ (c_dirty c' = true \/ exists last, refresh wire last (new_frame (c_frame c')) = Ok c').
Proof.
  intros H [H0 H1]. destruct (refresh_spec wire b c c' H) as (E1 & E2 & _). rewrite E1. split; [exact H0|]. right.
  unfold refresh in H. destruct (c_dirty c) eqn:D.
  - exists b. unfold refresh. cbn [c_dirty new_frame c_frame]. exact H.
  - apply Ok_inj in H. subst c'. destruct H1 as [H1|H1]; [discriminate|exact H1].
Qed.
Lemma refresh_all_inv (P : cframe -> Prop) wire b l : (forall c c' b', refresh wire b' c = Ok c' -> P c -> P c') ->
  forall l', refresh_all wire b l = Ok l' -> Forall P l -> Forall P l'.
Proof.
  intros HR. induction l as [|c r IH]; intros l' H HP; [apply Ok_inj in H; subst; constructor|]. apply Forall_cons_iff in HP as [Pc Pr].
  destruct r as [|d r].
  - cbn [refresh_all] in H. apply bind_ok in H as (c' & Hc & H). apply Ok_inj in H. subst l'. repeat constructor. eauto.
  - rewrite refresh_all_cons in H. apply bind_ok in H as (c' & Hc & H). apply bind_ok in H as (r' & Hr & H). apply Ok_inj in H. subst l'.
    constructor; eauto.
Qed.
Lemma map_refresh_inv (P : cframe -> Prop) wire l : (forall c c' b', refresh wire b' c = Ok c' -> P c -> P c') ->
  forall l', map_refresh wire l = Ok l' -> Forall P l -> Forall P l'.
Proof.
  intros HR. induction l as [|c r IH]; intros l' H HP; [apply Ok_inj in H; subst; constructor|]. apply Forall_cons_iff in HP as [Pc Pr].
  cbn [map_refresh] in H. apply bind_ok in H as (c' & Hc & H). apply bind_ok in H as (r' & Hr & H). apply Ok_inj in H. subst l'. constructor; eauto.
Qed.

(** What a frame written is made of. *)
Definition done (wire : frame -> outcome bytes) (c : cframe) : Prop :=
  exists w last, wire (c_frame c) = Ok w /\ is_bytes w /\ c_plain c = w /\ c_unsync c = unsynchronise w last /\ hd 0 w < 128 /\
    (c_syncs c = 0 -> apart 233 w) /\ (apart 233 w -> List.last w 0 <> 255 -> c_syncs c = 0).
Lemma starts22 f w : wire22 f = Ok w -> (exists x r, f_id f = x :: r /\ x < 128) -> hd 0 w < 128.
Proof.
  intros H (x & r & E & L). unfold wire22 in H. apply bind_ok in H as (p & _ & H). apply bind_ok in H as (h & Hh & H). apply Ok_inj in H. subst w.
  unfold header22 in Hh. destruct (_ <? _); [discriminate|]. apply Ok_inj in Hh. subst h. rewrite E. exact L.
Qed.
Lemma starts23 z f w : wire23 z f = Ok w -> (exists x r, f_id f = x :: r /\ x < 128) -> hd 0 w < 128.
Proof.
  intros H (x & r & E & L). unfold wire23 in H. apply bind_ok in H as (p & _ & H). destruct (is_some _); [discriminate|]. apply bind_ok in H as (q & _ & H).
  apply bind_ok in H as (h & Hh & H). apply Ok_inj in H. subst w.
  unfold header23 in Hh. cbv zeta in Hh. destruct (_ <? _); [discriminate|]. apply Ok_inj in Hh. subst h. rewrite E. exact L.
Qed.
Lemma starts24 z f w : wire24 z f = Ok w -> (exists x r, f_id f = x :: r /\ x < 128) -> hd 0 w < 128.
Proof.
  intros H (x & r & E & L). unfold wire24 in H. apply bind_ok in H as (p & _ & H). destruct (is_some _); [discriminate|]. apply bind_ok in H as (q & _ & H).
  apply bind_ok in H as (h & Hh & H). apply Ok_inj in H. subst w.
  unfold header24 in Hh. cbv zeta in Hh. apply bind_ok in Hh as (s & _ & Hh). apply Ok_inj in Hh. subst h. rewrite E. exact L.
Qed.
Lemma starts z t f w : wire_of z t f = Ok w -> (exists x r, f_id f = x :: r /\ x < 128) -> hd 0 w < 128.
Proof. destruct t; [apply starts22|apply starts23|apply starts24]. Qed.
Lemma ordinary_done z t c : ordinary z t c -> clean c -> done (wire_of z t) c.
Proof.
  intros (H1 & H2 & [H3|(b & H3)]) Hc; [unfold clean in Hc; congruence|]. unfold refresh in H3. cbn [c_dirty new_frame c_frame] in H3.
  apply bind_ok in H3 as (w & Hw & H3). apply Ok_inj in H3. exists w, b. split; [exact Hw|]. split; [now apply H2|].
  rewrite <- H3. cbn [c_plain c_unsync c_syncs]. split; [reflexivity|]. split; [reflexivity|]. split; [exact (starts z t _ w Hw H1)|]. split.
  - intros X. apply count_apart. destruct (b && _); lia.
  - intros X Y. apply count_apart in X. apply N.eqb_neq in Y. rewrite Y, andb_false_r. lia.
Qed.

(** ** The tag as it is written *)
Lemma ordinary_other z t t' c : wire_of z t' = wire_of z t -> ordinary z t c -> ordinary z t' c.
Proof. unfold ordinary. now intros ->. Qed.
Lemma same_wire z t t' : same_but_caches t t' -> wire_of z t' = wire_of z t.
Proof. destruct t, t'; cbn; tauto. Qed.
Lemma ordinary_refresh z t c c' b : refresh (wire_of z t) b c = Ok c' -> ordinary z t c -> ordinary z t c'.
Proof.
  intros H (H1 & H2 & H3).
  destruct (intact_refresh (wire_of z t) (fun f => (exists x r, f_id f = x :: r /\ x < 128) /\ (forall w, wire_of z t f = Ok w -> is_bytes w)) b c c' H) as [[K1 K2] K3]; [tauto|].
  unfold ordinary. auto.
Qed.
(** [recent] tags, or ID3v2.2. *)
Definition bare_tag (t : anytag) : Prop :=
  match t with A22 _ => True | A23 t => t3_ext t = None | A24 t => ext_simple (t4_ext t) end.
Lemma bare_sound t : bare_tag t -> sound_tag t.
Proof. destruct t; cbn; auto. now intros ->. Qed.
Lemma bare_same a b : same_but_caches a b -> bare_tag a -> bare_tag b.
Proof.
  destruct a, b; cbn [same_but_caches bare_tag]; try tauto.
  - intros (_ & _ & _ & _ & _ & E & _) E0. rewrite E0 in E. now destruct (t3_ext t0).
  - intros (_ & _ & _ & E & _). now rewrite E.
Qed.
Lemma needs_ordinary z t u t1 : bare_tag t -> Forall (ordinary z t) (frames_of t) -> any_needs z t = Ok (u, t1) -> Forall (ordinary z t) (frames_of t1).
Proof.
  intros Hs HC H. assert (R := ordinary_refresh z t). destruct t as [t|t|t]; cbn [bare_tag any_needs frames_of] in *.
  - apply bind_ok in H as ([v fs] & Hf & H). apply Ok_inj in H. injection H as _ <-. cbn.
    eapply (needs_inv (ordinary z (A22 t)) wire22 false); [|exact HC|exact Hf]. intros c c' _ b' _. exact (R c c' b').
  - rewrite prep_none in H by exact Hs. cbn [bind] in H. rewrite Hs in H. cbv iota in H.
    apply bind_ok in H as ([v fs] & Hf & H). apply Ok_inj in H. injection H as _ <-. cbn.
    eapply (needs_inv (ordinary z (A23 t)) (wire23 z)); [|exact HC|exact Hf]. intros c c' _ b' _. exact (R c c' b').
  - apply bind_ok in H as ([v fs] & Hf & H). apply Ok_inj in H. injection H as _ <-. cbn.
    eapply (all_need_inv (ordinary z (A24 t)) (wire24 z)); [|exact HC|exact Hf]. intros c c' _. exact (R c c' false).
Qed.
Lemma size_ordinary z t u n t1 : bare_tag t -> Forall (ordinary z t) (frames_of t) -> any_size z t u = Ok (n, t1) -> Forall (ordinary z t) (frames_of t1).
Proof.
  intros Hs HC H. assert (R : forall c c' b, refresh (wire_of z t) b c = Ok c' -> ordinary z t c -> ordinary z t c') by apply ordinary_refresh.
  destruct t as [t|t|t]; cbn [any_size frames_of bare_tag] in *;
    apply bind_ok in H as ([n' t'] & Hz & H); apply Ok_inj in H; injection H as <- <-; cbn [frames_of].
  - unfold size22 in Hz. apply bind_ok in Hz as (fs & Hf & Hz). apply Ok_inj in Hz. injection Hz as <- <-.
    exact (map_refresh_inv _ _ _ R _ Hf HC).
  - unfold size23 in Hz. rewrite prep_none in Hz by exact Hs. cbn [bind] in Hz. apply bind_ok in Hz as (fs & Hf & Hz). apply Ok_inj in Hz. injection Hz as <- <-.
    exact (refresh_all_inv _ _ _ _ R _ Hf HC).
  - unfold size24 in Hz. apply bind_ok in Hz as (fs & Hf & Hz). apply Ok_inj in Hz. injection Hz as <- <-.
    exact (refresh_all_inv _ _ _ _ R _ Hf HC).
Qed.

(** How much of each is taken. *)
Definition taken (t : anytag) (u : bool) (c : cframe) : bytes := match t with A22 _ => cached22 u c | _ => cached u c end.
Definition own_flags (t : anytag) : N := match t with A22 t => flags22 t | A23 t => flags23 t | A24 t => flags24 t end.
Lemma emit_parts z m t b t' : bare_tag t -> Forall (ordinary z t) (frames_of t) -> emit z m t = Ok (b, t') ->
  exists u v z0 z1 z2 z3 x fs ft,
    Forall (fun y => y < 128) [z0; z1; z2; z3] /\
    b = (B "ID3" ++ [v; 0; (match t with A24 _ => own_flags t | _ => N.lor (own_flags t) (bit_if u 128) end); z0; z1; z2; z3]) ++ x
        ++ concat (map (taken t u) fs) ++ repeatN 0 (any_padding t) ++ ft /\
    Forall (done (wire_of z t)) fs /\ map c_frame fs = map c_frame (frames_of t) /\
    v < 5 /\ (match t with A24 t0 => match t4_ext t0 with Some y => ext_wire24 y = Ok x | None => x = [] end | _ => x = [] end) /\
    (ft = [] \/ exists f s, ft = [51; 68; 73; 4; 0; f] ++ s /\ Forall (fun y => y < 128) s /\ f = own_flags t) /\
    (m = Never -> u = false) /\ (m = Always -> u = true) /\
    (m = AsNeeded -> u = match t with A24 _ => forallb syncs_in fs | _ => existsb syncs_in fs end).
Proof.
  intros Hs HO H. destruct (emit_probe z m t b t' H) as (n & t1 & HP).
  destruct (probe_settled z m t n t1 (bare_sound _ Hs) HP) as (u & (S1 & S2 & S3) & Sm & t0 & Hc & H0 & Hz).
  assert (O0 : Forall (ordinary z t) (frames_of t0)).
  { destruct m; cbn in Hc; [apply Ok_inj in Hc; injection Hc as _ <-; exact HO|apply Ok_inj in Hc; injection Hc as _ <-; exact HO|]. eapply needs_ordinary; eauto. }
  pose proof (same_wire z t t0 H0) as W0. pose proof (same_wire z t t1 Sm) as W1.
  assert (O0' : Forall (ordinary z t0) (frames_of t0)) by (eapply Forall_impl; [|exact O0]; intros a; now apply ordinary_other).
  assert (O1 : Forall (ordinary z t0) (frames_of t1)) by (eapply size_ordinary; eauto; now apply (bare_same t)).
  assert (D1 : Forall (done (wire_of z t)) (frames_of t1)).
  { rewrite Forall_forall in O1 |- *. intros c Hin. rewrite <- W0. apply ordinary_done; [now apply O1|].
    assert (S2' : Forall clean (frames_of t1)) by (destruct t1 as [t1|t1|t1]; [exact S2|exact (proj1 S2)|exact S2]).
    rewrite Forall_forall in S2'. now apply S2'. }
  assert (B1 : bare_tag t1) by now apply (bare_same t).
  assert (DEC : m = AsNeeded -> u = match t with A24 _ => forallb syncs_in (frames_of t1) | _ => existsb syncs_in (frames_of t1) end).
  { intros ->. specialize (S3 (any_padding t1)). rewrite set_pad_same in S3. cbn [compute_apply_unsync] in S3. rewrite clean_needs in S3 by assumption.
    apply Ok_inj in S3. injection S3 as <-. destruct t, t1; cbn [same_but_caches] in Sm; try tauto; try reflexivity. cbn [bare_tag] in B1. now rewrite B1. }
  assert (NV : m = Never -> u = false) by (intros ->; apply Ok_inj in Hc; now injection Hc as <- _).
  assert (AL : m = Always -> u = true) by (intros ->; apply Ok_inj in Hc; now injection Hc as <- _).
  unfold emit in H. rewrite Hc in H. cbn [bind] in H. pose proof (flags_same t t0 H0) as F0.
  destruct t0 as [t0|t0|t0], t as [t|t|t]; try (elim H0; fail); cbn [any_write any_size] in *;
    apply bind_ok in Hz as ([n' t1'] & Hz & Hz'); apply Ok_inj in Hz'; injection Hz' as <- <-; rewrite Hz in H; cbn [bind] in H.
  - apply bind_ok in H as (h & Hh & H). apply bind_ok in H as (fs & Hf & H). apply Ok_inj in H. injection H as <- _.
    cbn [all_clean] in S2. rewrite map_refresh_clean in Hf by exact S2. apply Ok_inj in Hf. subst fs.
    apply tag_header_inv in Hh as (z0 & z1 & z2 & z3 & -> & HZ & _). exists u, 2, z0, z1, z2, z3, [], (t2_frames t1'), [].
    split; [exact HZ|]. split; [cbn [own_flags any_padding taken]; rewrite F0, app_nil_r; destruct Sm as (_ & _ & E & _); rewrite E; reflexivity|].
    split; [exact D1|]. split; [cbn [frames_of]; apply Sm|]. split; [lia|]. split; [reflexivity|]. split; [now left|]. auto.
  - apply bind_ok in H as (h & Hh & H). destruct Sm as (Y1 & Y2 & Y3 & Y4 & _ & _ & Y6). cbn [bare_tag] in B1. rename B1 into Y5. destruct S2 as [S2 _]. rewrite prep_none in H by exact Y5. cbn [bind] in H.
    apply bind_ok in H as (fs & Hf & H). rewrite Y5 in H. apply Ok_inj in H. injection H as <- _.
    cbn [all_clean] in S2. rewrite map_refresh_clean in Hf by exact S2. apply Ok_inj in Hf. subst fs.
    apply tag_header_inv in Hh as (z0 & z1 & z2 & z3 & -> & HZ & _). exists u, 3, z0, z1, z2, z3, [], (t3_frames t1'), [].
    split; [exact HZ|]. split; [cbn [own_flags any_padding taken]; rewrite F0, app_nil_r, Y3; reflexivity|].
    split; [exact D1|]. split; [exact Y6|]. split; [lia|]. split; [reflexivity|]. split; [now left|]. auto.
  - destruct Sm as (Y1 & Y2 & Y3 & Y4 & Y5 & Y6).
    apply bind_ok in H as (h & Hh & H). apply bind_ok in H as (x & Hx & H). apply bind_ok in H as (fs & Hf & H). apply bind_ok in H as (ft & Hft & H). apply Ok_inj in H. injection H as <- _.
    cbn [all_clean] in S2. rewrite map_refresh_clean in Hf by exact S2. apply Ok_inj in Hf. subst fs.
    apply tag_header_inv in Hh as (z0 & z1 & z2 & z3 & -> & HZ & _). exists u, 4, z0, z1, z2, z3, x, (t4_frames t1'), ft.
    split; [exact HZ|]. split; [cbn [own_flags any_padding taken]; rewrite F0, Y5; reflexivity|].
    split; [exact D1|]. split; [exact Y6|]. split; [lia|]. split; [rewrite Y4 in Hx; destruct (t4_ext t); [exact Hx|now apply Ok_inj in Hx]|].
    split; [|auto]. destruct (t4_foot t1'); [|left; now apply Ok_inj in Hft]. right. unfold tag_footer in Hft. apply bind_ok in Hft as (s & Hs' & Hft). apply Ok_inj in Hft.
    exists (flags24 t0), s. split; [now symmetry|]. split; [|exact F0].
    assert (X : exists h, tag_header 4 0 0 (wrap64 n') = Ok h) by (unfold tag_header; rewrite Hs'; cbn; eauto). destruct X as (h & X).
    pose proof X as X'. apply tag_header_inv in X as (a0 & a1 & a2 & a3 & -> & HA & _). unfold tag_header in X'. rewrite Hs' in X'. cbn [bind] in X'. apply Ok_inj in X'.
    change (B "ID3") with [73; 68; 51] in X'. cbn [app] in X'. injection X' as ->. exact HA.
Qed.

(** ** No false sync *)
Lemma flags_small t u : N.lor (own_flags t) (bit_if u 128) <> 255 /\ own_flags t <> 255.
Proof.
  destruct t as [t|t|t]; cbn [own_flags]; [unfold flags22|unfold flags23|unfold flags24];
    destruct (match _ with Some true => _ | _ => false end), u; cbn [bit_if].
  all: repeat match goal with |- context [bit_if ?x _] => destruct x; cbn [bit_if] end; split; vm_compute; discriminate.
Qed.
Lemma framed (n : N) (f : cframe -> bytes) fs rest : 128 <= n + 1 -> Forall (fun c => apart n (f c) /\ hd 0 (f c) < 128) fs -> apart n rest -> hd 0 rest < 128 ->
  apart n (concat (map f fs) ++ rest) /\ hd 0 (concat (map f fs) ++ rest) < 128.
Proof.
  intros Hn H HR Hh. induction H as [|c r [H1 H2] H IH]; [auto|]. destruct IH as [I1 I2]. cbn [map concat]. rewrite <- app_assoc. split.
  - apply apart_app; auto. lia.
  - destruct (f c); [exact I2|exact H2].
Qed.
Lemma tail_apart n k ft (t : anytag) : 128 <= n + 1 -> ft = [] \/ (exists f s, ft = [51; 68; 73; 4; 0; f] ++ s /\ Forall (fun y => y < 128) s /\ f = own_flags t) ->
  apart n (repeatN 0 k ++ ft) /\ hd 0 (repeatN 0 k ++ ft) < 128.
Proof.
  intros Hn H. assert (X : apart n ft /\ hd 0 ft < 128).
  { destruct H as [->|(f & s & -> & Hs & ->)]; [split; [constructor|cbn; lia]|]. split; [|cbn; lia].
    rewrite <- (app_nil_r ([51; 68; 73; 4; 0; own_flags t] ++ s)). apply apart_none; [|constructor]. destruct (flags_small t false) as [_ F].
    apply Forall_app. split; [repeat constructor; try discriminate; exact F|]. eapply Forall_impl; [|exact Hs]. cbn. intros y Hy. lia. }
  split; [|now apply hd_zeros]. apply apart_app; [apply zeros_apart|apply X|lia].
Qed.
Lemma ext_apart x w : ext_simple (Some x) -> ext_wire24 x = Ok w -> Forall (fun y => y <> 255) w.
Proof.
  intros H E. unfold ext_wire24 in E. cbn in H. destruct H as (H1 & H2 & _). rewrite H1, H2 in E.
  apply bind_ok in E as (s & Hs & E). cbn [bind is_some bit_if opt_bytes] in E. apply Ok_inj in E. subst w.
  assert (X : exists h, tag_header 4 0 0 (y_size x) = Ok h) by (unfold tag_header; rewrite Hs; cbn; eauto). destruct X as (h & X).
  pose proof X as X'. apply tag_header_inv in X as (a0 & a1 & a2 & a3 & -> & HA & _). unfold tag_header in X'. rewrite Hs in X'. cbn [bind] in X'. apply Ok_inj in X'.
  change (B "ID3") with [73; 68; 51] in X'. cbn [app] in X'. injection X' as ->.
  apply Forall_app. split; [eapply Forall_impl; [|exact HA]; cbn; intros y Hy; lia|]. destruct (y_update x); cbn; repeat constructor; discriminate.
Qed.
Lemma recent_sound t : recent t -> bare_tag t.
Proof. destruct t; cbn; tauto. Qed.
Lemma whole_apart z n t u v z0 z1 z2 z3 x fs ft fl : recent t -> 128 <= n + 1 -> v < 5 -> fl <> 255 -> Forall (fun y => y < 128) [z0; z1; z2; z3] ->
  (match t with A24 t0 => match t4_ext t0 with Some y => ext_wire24 y = Ok x | None => x = [] end | _ => x = [] end) ->
  ft = [] \/ (exists f s, ft = [51; 68; 73; 4; 0; f] ++ s /\ Forall (fun y => y < 128) s /\ f = own_flags t) ->
  Forall (done (wire_of z t)) fs -> Forall (fun c => apart n (cached u c)) fs ->
  apart n ((B "ID3" ++ [v; 0; fl; z0; z1; z2; z3]) ++ x ++ concat (map (cached u) fs) ++ repeatN 0 (any_padding t) ++ ft).
Proof.
  intros HR Hn Hv Hfl HZ Hx Hft HD HA.
  assert (HH : Forall (fun y => y <> 255) (B "ID3" ++ [v; 0; fl; z0; z1; z2; z3])).
  { change (B "ID3") with [73; 68; 51]. cbn [app]. repeat (apply Forall_cons_iff in HZ as [? HZ]). repeat (constructor; [lia|]). constructor. }
  assert (HX : Forall (fun y => y <> 255) x).
  { destruct t as [t|t|t]; [elim HR|subst; constructor|]. cbn in HR. destruct (t4_ext t) as [y|]; [now apply (ext_apart y)|subst; constructor]. }
  destruct (tail_apart n (any_padding t) ft t Hn Hft) as [T1 T2].
  apply apart_none; [exact HH|]. apply apart_none; [exact HX|]. apply framed; auto.
  rewrite Forall_forall in *. intros c Hc. split; [now apply HA|]. destruct (HD c Hc) as (w & l & _ & _ & E1 & E2 & E3 & _).
  unfold cached. destruct u; [rewrite E2|rewrite E1; exact E3]. pose proof (unsynchronise_hd w l) as X. destruct (unsynchronise w l), w; cbn in *; try discriminate; try lia. injection X as ->. exact E3.
Qed.
Lemma always_clear z t b t' : recent t -> Forall (ordinary z t) (frames_of t) -> emit z Always t = Ok (b, t') -> no_false_sync b.
Proof.
  intros HR HO H. destruct (emit_parts z Always t b t' (recent_sound t HR) HO H) as (u & v & z0 & z1 & z2 & z3 & x & fs & ft & P1 & P2 & P3 & P4 & P5 & P6 & P7 & _ & P9 & _).
  specialize (P9 eq_refl). subst u. apply (apart_clear 223); [lia|]. destruct (flags_small t true) as [F1 F2].
  assert (E : map (taken t true) fs = map (cached true) fs) by (destruct t; [elim HR|reflexivity|reflexivity]). rewrite E in P2. rewrite P2.
  eapply whole_apart; eauto; [lia|destruct t; assumption|]. rewrite Forall_forall in *. intros c Hc. destruct (P3 c Hc) as (w & l & _ & B1 & _ & E2 & _). cbn [cached]. rewrite E2. now apply unsync_apart.
Qed.
Lemma needed_most z t b t' : recent t -> (match t with A23 _ => True | _ => False end) -> Forall (ordinary z t) (frames_of t) -> emit z AsNeeded t = Ok (b, t') -> ff_upto 233 b.
Proof.
  intros HR HV HO H. destruct (emit_parts z AsNeeded t b t' (recent_sound t HR) HO H) as (u & v & z0 & z1 & z2 & z3 & x & fs & ft & P1 & P2 & P3 & P4 & P5 & P6 & P7 & _ & _ & P10).
  specialize (P10 eq_refl). apply apart_upto. destruct (flags_small t u) as [F1 F2].
  assert (E : map (taken t u) fs = map (cached u) fs) by (destruct t; [elim HR|reflexivity|reflexivity]). rewrite E in P2. rewrite P2.
  eapply whole_apart; eauto; [lia|destruct t; assumption|]. rewrite Forall_forall in *. intros c Hc. destruct (P3 c Hc) as (w & l & _ & B1 & E1 & E2 & _ & K & _).
  destruct u; cbn [cached].
  - rewrite E2. apply apart_upto. intros i y I1 I2. pose proof (unsync_apart w l B1) as X. apply apart_upto in X. specialize (X i y I1 I2). lia.
  - rewrite E1. apply K. destruct t as [t|t|t]; try (elim HV; fail). symmetry in P10. destruct (c_syncs c =? 0) eqn:S0; [now apply N.eqb_eq|].
    assert (X : existsb syncs_in fs = true) by (apply existsb_exists; exists c; split; [exact Hc|]; unfold syncs_in; now rewrite S0). congruence.
Qed.
(** Where frames are written as they are, so are the false syncs in them. *)
Lemma plain_frames (wire : frame -> outcome bytes) fs : Forall (done wire) fs -> forall l, map c_frame fs = map c_frame l -> Forall2 (fun c w => wire (c_frame c) = Ok w) l (map c_plain fs).
Proof.
  induction 1 as [|c r Hc HD IH]; intros l E.
  - destruct l; [constructor|discriminate].
  - destruct l as [|d l]; [discriminate|]. cbn [map] in *. injection E as E1 E2. constructor; [|now apply IH].
    destruct Hc as (w & last & W & _ & E & _). rewrite <- E1, E. exact W.
Qed.
Lemma verbatim z t b t' m : bare_tag t -> Forall (ordinary z t) (frames_of t) -> emit z m t = Ok (b, t') ->
  (match t with A22 _ => m = Always | _ => m = Never end) ->
  exists h x ws ft, Forall2 (fun c w => wire_of z t (c_frame c) = Ok w) (frames_of t) ws /\ len h = 10 /\
    b = h ++ x ++ concat ws ++ repeatN 0 (any_padding t) ++ ft /\
    (match t with A24 t0 => match t4_ext t0 with Some y => ext_wire24 y = Ok x | None => x = [] end | _ => x = [] end).
Proof.
  intros HS HO H HM. destruct (emit_parts z m t b t' HS HO H) as (u & v & z0 & z1 & z2 & z3 & x & fs & ft & P1 & P2 & P3 & P4 & P5 & P6 & P7 & P8 & P9 & _).
  exists (B "ID3" ++ [v; 0; (match t with A24 _ => own_flags t | _ => N.lor (own_flags t) (bit_if u 128) end); z0; z1; z2; z3]), x, (map c_plain fs), ft.
  split; [now apply plain_frames|]. split; [reflexivity|]. split; [|exact P6]. rewrite P2.
  assert (E : map (taken t u) fs = map c_plain fs); [|now rewrite E].
  apply List.map_ext. intros c. destruct t; cbn [taken]; [rewrite (P9 HM)|rewrite (P8 HM)|rewrite (P8 HM)]; reflexivity.
Qed.
Lemma in_concat_split (l : list bytes) w : In w l -> exists p q, concat l = p ++ w ++ q.
Proof.
  intros H. apply in_split in H as (a & b & ->). exists (concat a), (concat b). rewrite concat_app. reflexivity.
Qed.
Lemma stays z t b t' m c w i : bare_tag t -> Forall (ordinary z t) (frames_of t) -> emit z m t = Ok (b, t') ->
  (match t with A22 _ => m = Always | _ => m = Never end) -> In c (frames_of t) -> wire_of z t (c_frame c) = Ok w -> false_sync_at w i -> exists j, false_sync_at b j.
Proof.
  intros HS HO H HM Hc Hw HF. destruct (verbatim z t b t' m HS HO H HM) as (h & x & ws & ft & F2 & _ & -> & _).
  assert (In w ws).
  { clear - F2 Hc Hw. induction F2 as [|d v l r E F2 IH]; [elim Hc|]. destruct Hc as [->|Hc]; [left; congruence|right; auto]. }
  destruct (in_concat_split ws w H0) as (p & q & ->).
  replace (h ++ x ++ (p ++ w ++ q) ++ repeatN 0 (any_padding t) ++ ft) with ((h ++ x ++ p) ++ w ++ (q ++ repeatN 0 (any_padding t) ++ ft)) by (now rewrite <- !app_assoc).
  now apply (false_sync_in _ _ _ i).
Qed.
Lemma frame_there fs (l : list cframe) c : map c_frame fs = map c_frame l -> In c l -> exists c', In c' fs /\ c_frame c' = c_frame c.
Proof. intros E H. apply (in_map c_frame) in H. rewrite <- E in H. apply in_map_iff in H as (c' & E' & H). eauto. Qed.

(** As needed: only if every frame of an ID3v2.4 tag needs it ... *)
Lemma quiet_zero (wire : frame -> outcome bytes) c : done wire c -> forall w, wire (c_frame c) = Ok w -> ff_upto 233 w -> last w 0 <> 255 -> c_syncs c = 0.
Proof. intros (w' & l & E & _ & _ & _ & _ & _ & K) w Hw HQ HL. rewrite E in Hw. apply Ok_inj in Hw. subst w'. apply K; [now apply apart_upto|exact HL]. Qed.
Lemma some_quiet z t b t' c0 w0 c w i : let T := A24 t in bare_tag T -> Forall (ordinary z T) (t4_frames t) -> emit z AsNeeded T = Ok (b, t') ->
  In c0 (t4_frames t) -> wire24 z (c_frame c0) = Ok w0 -> no_false_sync w0 -> last w0 0 <> 255 ->
  In c (t4_frames t) -> wire24 z (c_frame c) = Ok w -> false_sync_at w i -> exists j, false_sync_at b j.
Proof.
  intros T HS HO H Hc0 Hw0 HQ HL Hc Hw HF. destruct (emit_parts z AsNeeded T b t' HS HO H) as (u & v & z0 & z1 & z2 & z3 & x & fs & ft & P1 & P2 & P3 & P4 & P5 & P6 & P7 & P8 & P9 & P10).
  specialize (P10 eq_refl). cbn [frames_of T] in P4.
  assert (U : u = false).
  { rewrite P10. unfold T. apply not_true_is_false. intros X. rewrite forallb_forall in X. destruct (frame_there _ _ _ P4 Hc0) as (c1 & I1 & E1).
    specialize (X c1 I1). rewrite Forall_forall in P3. pose proof (P3 c1 I1) as D. rewrite <- E1 in Hw0.
    assert (Z : c_syncs c1 = 0).
    { apply (quiet_zero _ c1 D w0 Hw0); [|exact HL]. intros k y K1 K2. destruct (N.le_gt_cases y 233); [lia|]. elim (HQ k). split; [exact K1|]. exists y. split; [exact K2|lia]. }
    unfold syncs_in in X. rewrite Z in X. discriminate X. }
  rewrite P2, U.
  destruct (frame_there _ _ _ P4 Hc) as (c1 & I1 & E1). rewrite Forall_forall in P3. destruct (P3 c1 I1) as (w1 & l1 & W1 & _ & E2 & _).
  cbn [wire_of T] in W1. rewrite E1, Hw in W1. apply Ok_inj in W1. subst w1.
  destruct (in_concat_split (map (taken T false) fs) w) as (p & q & E3); [rewrite <- E2; exact (in_map (taken T false) fs c1 I1)|]. rewrite E3.
  set (h := B "ID3" ++ _). replace (h ++ x ++ (p ++ w ++ q) ++ repeatN 0 (any_padding T) ++ ft) with ((h ++ x ++ p) ++ w ++ (q ++ repeatN 0 (any_padding T) ++ ft)) by (now rewrite <- !app_assoc).
  now apply (false_sync_in _ _ _ i).
Qed.
(** ... and in ID3v2.3 not for an ff followed by e0 to e9. *)
Lemma missed z t b t' c w i : let T := A23 t in t3_ext t = None -> Forall (ordinary z T) (t3_frames t) -> emit z AsNeeded T = Ok (b, t') ->
  Forall (fun c => forall w, wire23 z (c_frame c) = Ok w -> ff_upto 233 w /\ last w 0 <> 255) (t3_frames t) ->
  In c (t3_frames t) -> wire23 z (c_frame c) = Ok w -> false_sync_at w i -> exists j, false_sync_at b j.
Proof.
  intros T HS HO H HQ Hc Hw HF. destruct (emit_parts z AsNeeded T b t' HS HO H) as (u & v & z0 & z1 & z2 & z3 & x & fs & ft & P1 & P2 & P3 & P4 & P5 & P6 & P7 & P8 & P9 & P10).
  specialize (P10 eq_refl). cbn [frames_of T] in P4. rewrite Forall_forall in P3, HQ.
  assert (U : u = false).
  { rewrite P10. unfold T. apply not_true_is_false. intros X. apply existsb_exists in X as (c1 & I1 & X). pose proof (P3 c1 I1) as D. pose proof D as (w1 & l1 & W1 & _).
    pose proof I1 as I2. apply (in_map c_frame) in I2. rewrite P4 in I2. apply in_map_iff in I2 as (c2 & E & I2).
    cbn [wire_of T] in W1. assert (Q : ff_upto 233 w1 /\ last w1 0 <> 255) by (apply (HQ c2 I2); congruence). destruct Q as [Q1 Q2].
    pose proof (quiet_zero _ c1 D w1 W1 Q1 Q2) as Z. unfold syncs_in in X. rewrite Z in X. discriminate X. }
  rewrite P2, U.
  destruct (frame_there _ _ _ P4 Hc) as (c1 & I1 & E1). destruct (P3 c1 I1) as (w1 & l1 & W1 & _ & E2 & _).
  cbn [wire_of T] in W1. rewrite E1, Hw in W1. apply Ok_inj in W1. subst w1.
  destruct (in_concat_split (map (taken T false) fs) w) as (p & q & E3); [rewrite <- E2; exact (in_map (taken T false) fs c1 I1)|]. rewrite E3.
  set (h := B "ID3" ++ _). replace (h ++ x ++ (p ++ w ++ q) ++ repeatN 0 (any_padding T) ++ ft) with ((h ++ x ++ p) ++ w ++ (q ++ repeatN 0 (any_padding T) ++ ft)) by (now rewrite <- !app_assoc).
  now apply (false_sync_in _ _ _ i).
Qed.
(** ID3v2.2: asked not to, it is done. *)
Lemma never22 z t b t' : Forall (ordinary z (A22 t)) (t2_frames t) -> emit z Never (A22 t) = Ok (b, t') -> no_false_sync b.
Proof.
  intros HO H. destruct (emit_parts z Never (A22 t) b t' I HO H) as (u & v & z0 & z1 & z2 & z3 & x & fs & ft & P1 & P2 & P3 & P4 & P5 & P6 & P7 & P8 & P9 & _).
  specialize (P8 eq_refl). subst u x. apply (apart_clear 223); [lia|]. rewrite P2.
  assert (HH : Forall (fun y => y <> 255) (B "ID3" ++ [v; 0; N.lor (own_flags (A22 t)) (bit_if false 128); z0; z1; z2; z3])).
  { destruct (flags_small (A22 t) false) as [F _]. set (fl := N.lor _ _) in *. change (B "ID3") with [73; 68; 51]. cbn [app]. repeat (apply Forall_cons_iff in P1 as [? P1]). repeat (constructor; [lia|]). constructor. }
  destruct (tail_apart 223 (any_padding (A22 t)) ft (A22 t)) as [T1 T2]; [lia|exact P7|].
  apply apart_none; [exact HH|]. cbn [app]. apply framed; auto; [lia|].
  rewrite Forall_forall in *. intros c Hc. destruct (P3 c Hc) as (w & l & _ & B1 & E1 & E2 & E3 & _). cbn [taken cached22]. rewrite E2. split; [now apply unsync_apart|].
  pose proof (unsynchronise_hd w l) as X. destruct (unsynchronise w l), w; cbn in *; try discriminate; try lia. injection X as ->. exact E3.
Qed.

(** ** The mark *)
Lemma mark_l z m t b t' : bare_tag t -> Forall (ordinary z t) (frames_of t) -> emit z m t = Ok (b, t') ->
  exists u, (m = Never -> u = false) /\ (m = Always -> u = true) /\
    says_unsync b = match t with A24 t => (match t4_unsync t with Some true => true | _ => false end)
                    | A23 t => (match t3_unsync t with Some true => true | _ => false end) || u
                    | A22 t => (match t2_unsync t with Some true => true | _ => false end) || u end.
Proof.
  intros HS HO H. destruct (emit_parts z m t b t' HS HO H) as (u & v & z0 & z1 & z2 & z3 & x & fs & ft & P1 & P2 & P3 & P4 & P5 & P6 & P7 & P8 & P9 & _).
  exists u. split; [exact P8|]. split; [exact P9|]. rewrite P2. unfold says_unsync. change (B "ID3") with [73; 68; 51]. cbn [app nth].
  destruct t as [t|t|t]; cbn [own_flags]; [unfold flags22|unfold flags23|unfold flags24].
  - destruct (match t2_unsync t with Some true => true | _ => false end), (t2_comp t), u; reflexivity.
  - destruct (match t3_unsync t with Some true => true | _ => false end), (is_some (t3_ext t)), (t3_exp t), u; reflexivity.
  - destruct (match t4_unsync t with Some true => true | _ => false end), (is_some (t4_ext t)), (t4_exp t), (t4_foot t); reflexivity.
Qed.

(** ** The extended header of ID3v2.3 *)
Lemma ext_untouched z t b t' x : emit z Always (A23 t) = Ok (b, A23 t') -> t3_ext t = Some x -> x_crc x = None -> x_dirty x = true ->
  forall i, false_sync_at (ext_wire23 x) i -> exists j, false_sync_at b j.
Proof.
  intros H HX HC HD i HF. unfold emit in H. cbn [compute_apply_unsync bind any_write] in H. apply bind_ok in H as ([cb t1] & Hz & H).
  apply bind_ok in H as (h & Hh & H). apply bind_ok in H as (t2 & Hp & H). apply bind_ok in H as (fs & Hf & H). apply Ok_inj in H. injection H as <- _.
  assert (E1 : t3_ext t1 = Some (ext_refresh x)).
  { unfold size23 in Hz. unfold prep_ext in Hz. rewrite HX, HC in Hz. cbn [is_some bind] in Hz. apply bind_ok in Hz as (gs & _ & Hz). apply Ok_inj in Hz. now injection Hz as _ <-. }
  assert (E2 : t3_ext t2 = Some (ext_refresh x)).
  { assert (X : x_crc (ext_refresh x) = None) by (unfold ext_refresh; rewrite HD; exact HC).
    unfold prep_ext in Hp. rewrite E1, X in Hp. cbn [is_some] in Hp. apply Ok_inj in Hp. subst t2. cbn [t3_ext].
    unfold ext_refresh at 1. unfold ext_refresh at 1. rewrite HD. cbn [x_dirty]. unfold ext_refresh. now rewrite HD. }
  rewrite E2. unfold ext_refresh. rewrite HD. cbn [ext_written23 x_plain]. now apply (false_sync_in _ _ _ i).
Qed.
