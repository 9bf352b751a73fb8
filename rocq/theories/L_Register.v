(** * Lemmas: parsers that an application registers. *)
From Verif Require Import Base M_Ints M_Unsync M_Stream M_Payload M_Cloud M_Frame M_Tag23 M_Tag22 M_Register
  S_Ints S_Unsync S_Payload S_Tag22 S_Register L_Ints L_Unsync L_Frame L_Tag23 L_Tag23e L_Tag22.
#[local] Open Scope N_scope.

Section Apps.
Context {A : Type}.
Implicit Types (t : table A) (h : list (act A)) (w : world A) (gs : list (bytes * parser A)).

(** ** Tables *)
Lemma eqb_eq x y : bytes_eqb x y = true <-> x = y.
Proof. destruct (bytes_eqb_spec x y) as [->|D]; split; congruence. Qed.

Lemma lookup_app t1 t2 id : lookup (t1 ++ t2) id = match lookup t1 id with Some f => Some f | None => lookup t2 id end.
Proof. induction t1 as [|[k f] r IH]; [reflexivity|]. cbn [app lookup]. now destruct (bytes_eqb k id). Qed.

Lemma lookup_none t id : lookup t id = None <-> none_for t id.
Proof.
  unfold none_for. induction t as [|[k f] r IH]; cbn [lookup map fst In]; [tauto|].
  destruct (bytes_eqb k id) eqn:E.
  - apply eqb_eq in E. split; [discriminate|]. intros H. elim H. now left.
  - rewrite IH. assert (k <> id) by (intros ->; rewrite (proj2 (eqb_eq id id) eq_refl) in E; discriminate). tauto.
Qed.

Lemma lookup_first t id f : lookup t id = Some f <-> first_for t id f.
Proof.
  unfold first_for. induction t as [|[k g] r IH]; cbn [lookup].
  - split; [discriminate|]. intros (l1 & l2 & E & _). now destruct l1.
  - destruct (bytes_eqb k id) eqn:E.
    + apply eqb_eq in E. subst k. split.
      * intros H. injection H as ->. exists [], r. split; [reflexivity|tauto].
      * intros (l1 & l2 & E & N1). destruct l1 as [|[k' g'] l1]; [now injection E as -> _|].
        injection E as <- _ _. elim N1. now left.
    + assert (K : k <> id) by (intros ->; rewrite (proj2 (eqb_eq id id) eq_refl) in E; discriminate).
      rewrite IH. split.
      * intros (l1 & l2 & -> & N1). exists ((k, g) :: l1), l2. split; [reflexivity|]. cbn [map fst In]. tauto.
      * intros (l1 & l2 & E' & N1). destruct l1 as [|[k' g'] l1]; [injection E' as -> _ _; congruence|].
        injection E' as <- <- ->. exists l1, l2. split; [reflexivity|]. cbn [map fst In] in N1. tauto.
Qed.

Lemma insert_lookup t id f x : lookup (fst (insert t id f)) x = lookup (t ++ [(id, f)]) x.
Proof.
  unfold insert. destruct (lookup t id) as [g|] eqn:E; cbn [fst]; [|reflexivity].
  rewrite lookup_app. destruct (lookup t x) eqn:X; [reflexivity|]. cbn [lookup].
  destruct (bytes_eqb id x) eqn:D; [|reflexivity]. apply eqb_eq in D. subst x. congruence.
Qed.

Lemma insert_said t id f : snd (insert t id f) = match lookup t id with Some _ => false | None => true end.
Proof. unfold insert. now destruct (lookup t id). Qed.

(** ** Identifiers *)
Lemma kind_text id : mem_id id text_ids22 = true <-> In id text_ids22.
Proof.
  unfold mem_id. rewrite existsb_exists. split.
  - intros (x & Hx & E). apply eqb_eq in E. now subst.
  - intros H. exists id. split; [exact H|]. now apply eqb_eq.
Qed.

Lemma reserved_refused id : reserved V22 id = true <-> refused id.
Proof.
  unfold reserved, refused, mem_id. cbn [existsb]. rewrite !orb_true_iff, !eqb_eq.
  split; [intros [H|[H|[H|H]]]; [tauto..|discriminate H]|tauto].
Qed.

Lemma text_known id f l : lookup (map (fun x => (x, f)) l : table A) id = if mem_id id l then Some f else None.
Proof.
  induction l as [|x r IH]; [reflexivity|]. cbn [map lookup]. unfold mem_id in *. cbn [existsb].
  destruct (bytes_eqb_spec x id) as [->|D].
  - now rewrite (proj2 (eqb_eq id id) eq_refl).
  - destruct (bytes_eqb_spec id x) as [E|_]; [congruence|]. exact IH.
Qed.

Lemma dispatch_default v id : dispatch v (generic_defaults v) (text_defaults v) id = @built_in A v (kind_of v id).
Proof.
  assert (S4 : forall x y : bytes, bytes_eqb x y = bytes_eqb y x).
  { intros x y. destruct (bytes_eqb_spec x y) as [E|D]; destruct (bytes_eqb_spec y x); congruence. }
  destruct v; unfold dispatch, kind_of, registered, text_defaults; rewrite !text_known; cbn [generic_defaults lookup].
  - rewrite !(S4 _ id). repeat match goal with |- context [if bytes_eqb id ?y then _ else _] =>
      destruct (bytes_eqb id y) eqn:?; [now destruct (mem_id id text_ids22)|] end.
    now destruct (mem_id id text_ids22).
  - rewrite !(S4 _ id). destruct (mem_id id text_ids4); repeat match goal with
      |- context [if bytes_eqb id ?y then _ else _] => destruct (bytes_eqb id y) eqn:?; [reflexivity|] end; reflexivity.
  - rewrite !(S4 _ id). destruct (mem_id id text_ids4); repeat match goal with
      |- context [if bytes_eqb id ?y then _ else _] => destruct (bytes_eqb id y) eqn:?; [reflexivity|] end; reflexivity.
Qed.

(** ** Tables after a history *)
Definition accepted (gs : list (bytes * parser A)) : list (bytes * parser A) :=
  filter (fun x => negb (reserved V22 (fst x))) gs.

Lemma after_app w h1 h2 : after w (h1 ++ h2) = after (after w h1) h2.
Proof. revert w. induction h1 as [|a r IH]; intros w; [reflexivity|]. apply IH. Qed.
Lemma generics_app h1 h2 : generics (h1 ++ h2) = generics h1 ++ generics h2.
Proof. apply flat_map_app. Qed.
Lemma texts_app h1 h2 : texts (h1 ++ h2) = texts h1 ++ texts h2.
Proof. apply flat_map_app. Qed.

Lemma step_generic w a id :
  lookup (w_generic (snd (step w a))) id = lookup (w_generic w ++ accepted (generics [a])) id.
Proof.
  unfold accepted, generics. destruct a as [i f|i f|u|u fl b|u i f|u i f|u u']; cbn [step flat_map app filter fst].
  - destruct (reserved V22 i) eqn:R; cbn [negb snd]; [now rewrite app_nil_r|].
    pose proof (insert_lookup (w_generic w) i f id) as H. destruct (insert (w_generic w) i f) as [g c]. exact H.
  - rewrite app_nil_r. now destruct (insert (w_text w) i f) as [g c].
  - now rewrite app_nil_r.
  - rewrite app_nil_r. now destruct (w_begun w u).
  - rewrite app_nil_r. destruct (w_tags w u) as [o|]; [|reflexivity]. destruct (reserved V22 i); [reflexivity|].
    now destruct (insert (o_generic o) i f) as [g c].
  - rewrite app_nil_r. destruct (w_tags w u) as [o|]; [|reflexivity]. destruct (reserved V22 i); [reflexivity|].
    now destruct (insert (o_text o) i f) as [g c].
  - now rewrite app_nil_r.
Qed.

Lemma step_text w a id : lookup (w_text (snd (step w a))) id = lookup (w_text w ++ texts [a]) id.
Proof.
  unfold texts. destruct a as [i f|i f|u|u fl b|u i f|u i f|u u']; cbn [step flat_map app].
  - rewrite app_nil_r. destruct (reserved V22 i) eqn:R; [reflexivity|].
    now destruct (insert (w_generic w) i f) as [g c].
  - pose proof (insert_lookup (w_text w) i f id) as H. destruct (insert (w_text w) i f) as [g c]. exact H.
  - now rewrite app_nil_r.
  - rewrite app_nil_r. now destruct (w_begun w u).
  - rewrite app_nil_r. destruct (w_tags w u) as [o|]; [|reflexivity]. destruct (reserved V22 i); [reflexivity|].
    now destruct (insert (o_generic o) i f) as [g c].
  - rewrite app_nil_r. destruct (w_tags w u) as [o|]; [|reflexivity]. destruct (reserved V22 i); [reflexivity|].
    now destruct (insert (o_text o) i f) as [g c].
  - now rewrite app_nil_r.
Qed.

Lemma after_generic h : forall w id, lookup (w_generic (after w h)) id = lookup (w_generic w ++ accepted (generics h)) id.
Proof.
  induction h as [|a r IH]; intros w id; [cbn; now rewrite app_nil_r|].
  cbn [after]. rewrite IH. change (generics (a :: r)) with (generics ([a] ++ r)). rewrite generics_app.
  unfold accepted. rewrite filter_app, !lookup_app, step_generic, !lookup_app. fold (accepted (generics [a])).
  now destruct (lookup (w_generic w) id), (lookup (accepted (generics [a])) id).
Qed.
Lemma after_text h : forall w id, lookup (w_text (after w h)) id = lookup (w_text w ++ texts h) id.
Proof.
  induction h as [|a r IH]; intros w id; [cbn; now rewrite app_nil_r|].
  cbn [after]. rewrite IH. change (texts (a :: r)) with (texts ([a] ++ r)). rewrite texts_app.
  rewrite !lookup_app, step_text, !lookup_app.
  now destruct (lookup (w_text w) id), (lookup (texts [a]) id).
Qed.

(** ** The parser that is run *)
Lemma lookup_accepted gs id : lookup (accepted gs) id = if reserved V22 id then None else lookup gs id.
Proof.
  induction gs as [|[k f] r IH]; [now destruct (reserved V22 id)|]. unfold accepted in *. cbn [filter fst lookup].
  destruct (bytes_eqb_spec k id) as [->|D].
  - destruct (reserved V22 id) eqn:R; cbn [negb]; [exact IH|]. cbn [lookup].
    now rewrite (proj2 (eqb_eq id id) eq_refl).
  - destruct (reserved V22 k); cbn [negb]; [exact IH|]. cbn [lookup].
    destruct (bytes_eqb_spec k id); [congruence|exact IH].
Qed.

Lemma default_text_iff id : lookup (@text_defaults A V22) id = if mem_id id text_ids22 then Some (built_in V22 KText) else None.
Proof. apply text_known. Qed.

Lemma default_generic id : id <> B "COM" -> id <> B "CNT" -> id <> B "POP" -> mem_id id text_ids22 = false ->
  lookup (@generic_defaults A V22) id =
    match kind_of V22 id with KUnknown => None | k => Some (built_in V22 k) end /\
  (kind_of V22 id = KUnknown <-> ~ known id).
Proof.
  intros N1 N2 N3 M. unfold kind_of, known. cbn [generic_defaults lookup]. rewrite M.
  destruct (bytes_eqb_spec id (B "COM")) as [E|_]; [congruence|].
  destruct (bytes_eqb_spec id (B "CNT")) as [E|_]; [congruence|].
  destruct (bytes_eqb_spec id (B "POP")) as [E|_]; [congruence|].
  destruct (bytes_eqb_spec id (B "UFI")) as [->|D1]; [split; [reflexivity|]; split; [discriminate|tauto]|].
  destruct (bytes_eqb_spec id (B "TXX")) as [->|D2]; [split; [reflexivity|]; split; [discriminate|tauto]|].
  destruct (bytes_eqb_spec id (B "XTG")) as [->|D3]; [split; [reflexivity|]; split; [discriminate|tauto]|].
  split; [|tauto].
  destruct (bytes_eqb_spec (B "UFI") id) as [E|_]; [congruence|].
  destruct (bytes_eqb_spec (B "TXX") id) as [E|_]; [congruence|].
  destruct (bytes_eqb_spec (B "CNT") id) as [E|_]; [congruence|].
  destruct (bytes_eqb_spec (B "POP") id) as [E|_]; [congruence|].
  destruct (bytes_eqb_spec (B "XTG") id) as [E|_]; [congruence|]. reflexivity.
Qed.

Lemma not_fixed id : ~ fixed id -> id <> B "COM" /\ id <> B "CNT" /\ id <> B "POP" /\ mem_id id text_ids22 = false.
Proof.
  unfold fixed. intros H. repeat split; [tauto..|]. destruct (mem_id id text_ids22) eqn:M; [|reflexivity].
  apply kind_text in M. tauto.
Qed.

Lemma dispatch_open G T id : ~ fixed id -> @dispatch A V22 G T id = registered V22 G T id.
Proof.
  intros H. apply not_fixed in H as (N1 & N2 & N3 & _). unfold dispatch.
  destruct (bytes_eqb_spec id (B "COM")) as [E|_]; [congruence|].
  destruct (bytes_eqb_spec id (B "CNT")) as [E|_]; [congruence|].
  destruct (bytes_eqb_spec id (B "POP")) as [E|_]; [congruence|]. reflexivity.
Qed.

Lemma dispatch_fixed G T id : fixed id ->
  (forall x, lookup (@text_defaults A V22) x <> None -> lookup T x = lookup (text_defaults V22) x) ->
  @dispatch A V22 G T id = built_in V22 (kind_of V22 id).
Proof.
  intros F H. unfold dispatch, kind_of.
  destruct (bytes_eqb id (B "COM")) eqn:E1; [reflexivity|].
  destruct (bytes_eqb id (B "CNT")) eqn:E2; [reflexivity|].
  destruct (bytes_eqb id (B "POP")) eqn:E3; [reflexivity|].
  assert (M : mem_id id text_ids22 = true).
  { destruct F as [F|[F|[F|F]]]; [rewrite F in *; discriminate..|now apply kind_text]. }
  rewrite M. unfold registered. specialize (H id). rewrite default_text_iff, M in H.
  now rewrite H by discriminate.
Qed.

Lemma dispatch_chosen G T gs ts id f :
  (forall x, lookup G x = lookup (generic_defaults V22 ++ accepted gs) x) ->
  (forall x, lookup T x = lookup (text_defaults V22 ++ ts) x) ->
  chosen gs ts id f -> dispatch V22 G T id = f.
Proof.
  intros HG HT C. destruct C as [F|f F H|F H K|f F H K R HG1|F H K R].
  - apply dispatch_fixed; [exact F|]. intros x X. rewrite HT, lookup_app.
    destruct (lookup (text_defaults V22) x); [reflexivity|congruence].
  - rewrite dispatch_open by exact F. unfold registered. rewrite HT, lookup_app, default_text_iff.
    apply not_fixed in F as (_ & _ & _ & ->). apply lookup_first in H. now rewrite H.
  - rewrite dispatch_open by exact F. unfold registered. rewrite HT, lookup_app, default_text_iff.
    apply not_fixed in F as (N1 & N2 & N3 & M). rewrite M. apply lookup_none in H. rewrite H.
    rewrite HG, lookup_app. destruct (default_generic id N1 N2 N3 M) as [-> KN].
    destruct (kind_of V22 id); [elim (proj1 KN eq_refl); exact K|reflexivity..].
  - rewrite dispatch_open by exact F. unfold registered. rewrite HT, lookup_app, default_text_iff.
    apply not_fixed in F as (N1 & N2 & N3 & M). rewrite M. apply lookup_none in H. rewrite H.
    rewrite HG, lookup_app. destruct (default_generic id N1 N2 N3 M) as [-> KN]. rewrite (proj2 KN K).
    rewrite lookup_accepted. destruct (reserved V22 id) eqn:E; [apply reserved_refused in E; tauto|].
    apply lookup_first in HG1. now rewrite HG1.
  - rewrite dispatch_open by exact F. unfold registered. rewrite HT, lookup_app, default_text_iff.
    apply not_fixed in F as (N1 & N2 & N3 & M). rewrite M. apply lookup_none in H. rewrite H.
    rewrite HG, lookup_app. destruct (default_generic id N1 N2 N3 M) as [-> KN]. rewrite (proj2 KN K).
    rewrite lookup_accepted. destruct (reserved V22 id) eqn:E; [reflexivity|].
    destruct R as [R|R]; [apply reserved_refused in R; congruence|]. apply lookup_none in R. now rewrite R.
Qed.

(** ** The frames of a tag *)
Lemma frames_with_cons G T fuel cb x l rest : @frames_with A G T (S fuel) cb (x :: l) rest =
  let* e := frame_head22 (x :: l) rest in
  match e with
  | None => Ok ([], len (x :: l))
  | Some (id, c) =>
      if cb <=? c then Throw InvalidTag
      else
        let* m := dispatch V22 G T id id (dropN 6 (x :: l) ++ rest) c in
        let* (fs, pad) := frames_with G T fuel cb (dropN (c + 6) (x :: l)) rest in
        Ok ((id, m) :: fs, pad)
  end.
Proof. reflexivity. Qed.

Lemma laid_length gs ts beyond ms pad l : @laid_and_made A gs ts beyond ms pad l -> (length ms <= length l)%nat.
Proof.
  induction 1 as [|id f m p ms pad l s0 s1 s2 Hid Hhd Hne F Hs _ _ _ IH]; [cbn; lia|].
  cbn [length]. rewrite !app_length. cbn [length]. lia.
Qed.

Lemma read_laid G T gs ts beyond ms pad l :
  (forall x, lookup G x = lookup (generic_defaults V22 ++ accepted gs) x) ->
  (forall x, lookup T x = lookup (text_defaults V22 ++ ts) x) ->
  @laid_and_made A gs ts beyond ms pad l -> forall fuel cb, (length ms < fuel)%nat ->
  len l <= cb -> frames_with G T fuel cb l beyond = Ok (ms, pad).
Proof.
  intros HG HT.
  induction 1 as [pad|id f m p ms pad l s0 s1 s2 Hid Hhd Hne F Hs Hc Hm _ IH]; intros fuel cb Hfu Hcb.
  - destruct fuel as [|fuel]; [cbn in Hfu; lia|].
    destruct (N.eq_dec pad 0) as [->|Hn]; [reflexivity|].
    destruct (repeatN 0 pad) as [|x l] eqn:E.
    { apply (f_equal len) in E. rewrite len_repeatN, len_nil in E. lia. }
    rewrite frames_with_cons, <- E, head22_zeros by lia. cbn [bind]. now rewrite len_repeatN.
  - destruct fuel as [|fuel]; [cbn in Hfu; lia|].
    assert (Hd : uint32_from_non_sync_safe3 s0 s1 s2 = len p).
    { repeat (apply Forall_cons_iff in F as [? F]). rewrite nss3_spec by assumption. rewrite Hs.
      change (256 ^ 2) with 65536. lia. }
    destruct (drop22_raw id s0 s1 s2 p l (len p + 6) Hid eq_refl) as [D1 D2].
    assert (HL : len l + len p < cb).
    { rewrite !len_app in Hcb. change (len [s0; s1; s2]) with 3 in Hcb. lia. }
    assert (Hw : frame_head22 (id ++ [s0; s1; s2] ++ p ++ l) beyond = Ok (Some (id, len p))).
    { rewrite <- Hd. destruct p as [|x p']; [congruence|]. exact (head22_raw id s0 s1 s2 x (p' ++ l) beyond Hid Hhd). }
    assert (Hx : exists x q', id ++ [s0; s1; s2] ++ p ++ l = x :: q').
    { destruct id; [now elim Hhd|]. cbn [app]. eauto. }
    destruct Hx as (x & q' & Ew). rewrite Ew in *.
    rewrite frames_with_cons, Hw. cbn [bind]. replace (cb <=? len p) with false by lia.
    rewrite D1, <- app_assoc, (dispatch_chosen G T gs ts id f HG HT Hc), Hm.
    cbn [bind]. rewrite D2, IH by (cbn in Hfu; lia). reflexivity.
Qed.

(** Frames do not depend on parsers for identifiers that do not occur. *)
Lemma frames_with_other G T G' T' i :
  (forall x, x <> i -> dispatch V22 G' T' x = dispatch V22 G T x) ->
  forall fuel cb l rest ms pad, @frames_with A G T fuel cb l rest = Ok (ms, pad) -> ~ In i (map fst ms) ->
  frames_with G' T' fuel cb l rest = Ok (ms, pad).
Proof.
  intros H. induction fuel as [|fuel IH]; intros cb l rest ms pad E NI; [discriminate E|].
  destruct l as [|x l]; [exact E|]. rewrite frames_with_cons in *.
  destruct (frame_head22 (x :: l) rest) as [[[id c]|]| | |]; cbn [bind] in *; try discriminate E; [|exact E].
  destruct (cb <=? c); [discriminate E|].
  apply bind_ok in E as (m & Em & E). apply bind_ok in E as ([fs p'] & Ef & E). apply Ok_inj in E.
  injection E as <- <-. cbn [map fst In] in NI.
  rewrite H by (intros ->; apply NI; now left). rewrite Em. cbn [bind].
  rewrite (IH _ _ _ _ _ Ef) by tauto. reflexivity.
Qed.

Lemma frames_with_ext G T G' T' : (forall x, dispatch V22 G' T' x = dispatch V22 G T x) ->
  forall fuel cb l rest, @frames_with A G' T' fuel cb l rest = frames_with G T fuel cb l rest.
Proof.
  intros H. induction fuel as [|fuel IH]; intros cb l rest; [reflexivity|].
  destruct l as [|x l]; [reflexivity|]. rewrite !frames_with_cons.
  destruct (frame_head22 (x :: l) rest) as [[[id c]|]| | |]; cbn [bind]; try reflexivity.
  destruct (cb <=? c); [reflexivity|]. rewrite H, IH. reflexivity.
Qed.
Lemma parse_with_ext G T G' T' fl buf : (forall x, dispatch V22 G' T' x = dispatch V22 G T x) ->
  @parse_with A G' T' fl buf = parse_with G T fl buf.
Proof. intros H. unfold parse_with. cbv zeta. now apply frames_with_ext. Qed.

(** With the library's parsers, the frames are M_Tag22's. *)
Definition own (f : frame) : bytes * made A := (f_id f, Own (f_body f)).
Lemma frames_with_default G T : (forall x, dispatch V22 G T x = built_in V22 (kind_of V22 x)) ->
  forall fuel cb l rest, frames_with G T fuel cb l rest =
    let* (fs, pad) := frames22 fuel cb l rest in Ok (map own fs, pad).
Proof.
  intros H. induction fuel as [|fuel IH]; intros cb l rest; [reflexivity|].
  destruct l as [|x l]; [reflexivity|]. rewrite frames_with_cons, frames22_cons.
  destruct (frame_head22 (x :: l) rest) as [[[id c]|]| | |]; cbn [bind]; try reflexivity.
  destruct (cb <=? c); [reflexivity|]. rewrite H, IH. unfold built_in.
  destruct (parse_payload V22 (kind_of V22 id) (dropN 6 (x :: l) ++ rest) c); cbn [bind]; try reflexivity.
  now destruct (frames22 fuel cb (dropN (c + 6) (x :: l)) rest) as [[fs pad]| | |].
Qed.

(** ** Tags after a history *)
Lemma put_same {X} (g : nat -> option X) u x : put g u x u = x.
Proof. unfold put. now rewrite Nat.eqb_refl. Qed.
Lemma put_other {X} (g : nat -> option X) u x v : v <> u -> put g u x v = g v.
Proof. intros D. unfold put. destruct (Nat.eqb_spec v u); congruence. Qed.

Lemma begun_kept h u : Forall (not_constructing u) h -> forall w, w_begun (after w h) u = w_begun w u.
Proof.
  induction 1 as [|a r Ha _ IH]; intros w; [reflexivity|]. cbn [after]. rewrite IH. clear IH.
  destruct a as [i f|i f|v|v fl b|v i f|v i f|v v']; cbn [step not_constructing] in *.
  - destruct (reserved V22 i); [reflexivity|]. now destruct (insert (w_generic w) i f).
  - now destruct (insert (w_text w) i f).
  - cbn [snd w_begun]. apply put_other. congruence.
  - destruct (w_begun w v) as [g|] eqn:E; [|reflexivity]. cbn [snd w_begun]. apply put_other. congruence.
  - destruct (w_tags w v) as [o|]; [|reflexivity]. destruct (reserved V22 i); [reflexivity|].
    now destruct (insert (o_generic o) i f).
  - destruct (w_tags w v) as [o|]; [|reflexivity]. destruct (reserved V22 i); [reflexivity|].
    now destruct (insert (o_text o) i f).
  - reflexivity.
Qed.

Lemma holds_step w a u : not_assigning u a -> holds (snd (step w a)) u = holds w u.
Proof.
  intros Ha. unfold holds. destruct a as [i f|i f|v|v fl b|v i f|v i f|v v']; cbn [step not_assigning] in *.
  - destruct (reserved V22 i); [reflexivity|]. now destruct (insert (w_generic w) i f).
  - now destruct (insert (w_text w) i f).
  - reflexivity.
  - destruct (w_begun w v) as [g|]; [|reflexivity]. cbn [snd w_tags].
    destruct (parse_with g (w_text w) fl b) as [[fs pad]| | |]; try reflexivity. rewrite put_other by congruence. reflexivity.
  - destruct (w_tags w v) as [o|] eqn:E; [|reflexivity]. destruct (reserved V22 i); [reflexivity|].
    destruct (insert (o_generic o) i f). cbn [snd w_tags].
    destruct (Nat.eq_dec u v) as [->|D]; [rewrite put_same, E; reflexivity|]. now rewrite put_other.
  - destruct (w_tags w v) as [o|] eqn:E; [|reflexivity]. destruct (reserved V22 i); [reflexivity|].
    destruct (insert (o_text o) i f). cbn [snd w_tags].
    destruct (Nat.eq_dec u v) as [->|D]; [rewrite put_same, E; reflexivity|]. now rewrite put_other.
  - cbn [snd w_tags]. now rewrite put_other by congruence.
Qed.
Lemma holds_kept h u : Forall (not_assigning u) h -> forall w, holds (after w h) u = holds w u.
Proof. induction 1 as [|a r Ha _ IH]; intros w; [reflexivity|]. cbn [after]. rewrite IH. now apply holds_step. Qed.

(** Construction of [u], from its two steps. *)
Lemma constructed h1 h2 h3 u fl buf w :
  Forall (not_constructing u) h2 -> Forall (not_assigning u) h3 ->
  holds (after w (h1 ++ Begin u :: h2 ++ Finish u fl buf :: h3)) u =
    match parse_with (w_generic (after w h1)) (w_text (after w (h1 ++ Begin u :: h2))) fl buf with
    | Ok r => Some r
    | _ => holds (after w (h1 ++ Begin u :: h2)) u
    end.
Proof.
  intros H2 H3. replace (h1 ++ Begin u :: h2 ++ Finish u fl buf :: h3) with
    ((h1 ++ Begin u :: h2) ++ Finish u fl buf :: h3) by (now rewrite <- app_assoc).
  rewrite (after_app w (h1 ++ Begin u :: h2)). cbn [after]. rewrite holds_kept by exact H3.
  set (w2 := after w (h1 ++ Begin u :: h2)).
  assert (E : w_begun w2 u = Some (w_generic (after w h1))).
  { unfold w2. rewrite after_app. cbn [after]. rewrite begun_kept by exact H2. cbn [step snd w_begun]. apply put_same. }
  cbn [step]. rewrite E. unfold holds. cbn [snd w_tags].
  destruct (parse_with (w_generic (after w h1)) (w_text w2) fl buf) as [[fs pad]| | |]; [|reflexivity..].
  now rewrite put_same.
Qed.

(** ** Histories that come to the same *)
Definition same_table (i : bytes) (t1 t2 : table A) : Prop := forall x, x <> i -> lookup t1 x = lookup t2 x.
Definition sim (i : bytes) (w1 w2 : world A) : Prop :=
  (forall x, lookup (w_generic w1) x = lookup (w_generic w2) x) /\
  (forall x, x <> i -> lookup (w_text w1) x = lookup (w_text w2) x) /\
  (forall u, match w_begun w1 u, w_begun w2 u with
             | Some g1, Some g2 => forall x, lookup g1 x = lookup g2 x
             | None, None => True
             | _, _ => False
             end) /\
  (forall u, holds w1 u = holds w2 u).

Lemma sim_refl i w : sim i w w.
Proof. repeat split. intros u. now destruct (w_begun w u). Qed.

Lemma insert_same t1 t2 i id f (Q : bytes -> Prop) :
  (forall x, Q x -> lookup t1 x = lookup t2 x) -> Q i ->
  lookup (fst (insert t1 id f)) i = lookup (fst (insert t2 id f)) i.
Proof. intros H Qi. rewrite !insert_lookup, !lookup_app. now rewrite (H i Qi). Qed.

Lemma dispatch_sim i G1 T1 G2 T2 : i = B "COM" \/ i = B "CNT" \/ i = B "POP" ->
  (forall x, lookup G1 x = lookup G2 x) -> (forall x, x <> i -> lookup T1 x = lookup T2 x) ->
  forall x, @dispatch A V22 G1 T1 x = dispatch V22 G2 T2 x.
Proof.
  intros Hi HG HT x. unfold dispatch.
  destruct (bytes_eqb_spec x (B "COM")) as [E|D1]; [reflexivity|].
  destruct (bytes_eqb_spec x (B "CNT")) as [E|D2]; [reflexivity|].
  destruct (bytes_eqb_spec x (B "POP")) as [E|D3]; [reflexivity|].
  unfold registered. rewrite HG, HT; [reflexivity|]. intros ->. destruct Hi as [->|[->| ->]]; congruence.
Qed.

Lemma holds_put w g x b u o v : holds (mkWorld g x b (put (w_tags w) u o)) v =
  if Nat.eqb v u then option_map (fun o => (o_frames o, o_pad o)) o else holds w v.
Proof. unfold holds. cbn [w_tags]. unfold put. now destruct (Nat.eqb v u). Qed.
Lemma holds_tags w g x b v : holds (mkWorld g x b (w_tags w)) v = holds w v.
Proof. reflexivity. Qed.
Lemma holds_both w1 w2 u : holds w1 u = holds w2 u ->
  match w_tags w1 u, w_tags w2 u with
  | Some o1, Some o2 => o_frames o1 = o_frames o2 /\ o_pad o1 = o_pad o2
  | None, None => True
  | _, _ => False
  end.
Proof.
  unfold holds. destruct (w_tags w1 u), (w_tags w2 u); cbn [option_map]; try discriminate; [|trivial].
  intros E. injection E as E1 E2. now split.
Qed.

(** Registering with a tag changes no frames. *)
Lemma tag_step w a u : not_with_tag a = false -> holds (snd (step w a)) u = holds w u /\
  w_generic (snd (step w a)) = w_generic w /\ w_text (snd (step w a)) = w_text w /\
  w_begun (snd (step w a)) = w_begun w.
Proof.
  destruct a as [i f|i f|v|v fl b|v i f|v i f|v v']; try discriminate; intros _; cbn [step].
  - destruct (w_tags w v) as [o|] eqn:E; [|now repeat split]. destruct (reserved V22 i); [now repeat split|].
    destruct (insert (o_generic o) i f). cbn [snd w_generic w_text w_begun]. repeat split.
    rewrite holds_put. destruct (Nat.eqb_spec u v) as [->|D]; [|reflexivity]. unfold holds. now rewrite E.
  - destruct (w_tags w v) as [o|] eqn:E; [|now repeat split]. destruct (reserved V22 i); [now repeat split|].
    destruct (insert (o_text o) i f). cbn [snd w_generic w_text w_begun]. repeat split.
    rewrite holds_put. destruct (Nat.eqb_spec u v) as [->|D]; [|reflexivity]. unfold holds. now rewrite E.
Qed.

Lemma sim_tag i w1 w2 a : not_with_tag a = false -> sim i w1 w2 -> sim i (snd (step w1 a)) w2.
Proof.
  intros N1 (HG & HT & HB & HH). repeat split.
  - intros x. destruct (tag_step w1 a 0 N1) as (_ & -> & _ & _). apply HG.
  - intros x X. destruct (tag_step w1 a 0 N1) as (_ & _ & -> & _). now apply HT.
  - intros u. destruct (tag_step w1 a u N1) as (_ & _ & _ & ->). apply HB.
  - intros u. destruct (tag_step w1 a u N1) as (-> & _). apply HH.
Qed.

Lemma sim_text i w1 w2 f : sim i w1 w2 -> sim i (snd (step w1 (RegText i f))) w2.
Proof.
  intros (HG & HT & HB & HH). cbn [step].
  pose proof (insert_lookup (w_text w1) i f) as IL. destruct (insert (w_text w1) i f) as [x b].
  cbn [snd fst] in *. repeat split; [exact HG| |exact HB|exact HH].
  intros y Y. cbn [w_text]. rewrite IL, lookup_app. rewrite <- (HT y Y). destruct (lookup (w_text w1) y); [reflexivity|].
  cbn [lookup]. destruct (bytes_eqb_spec i y); [congruence|reflexivity].
Qed.

Lemma sim_step i w1 w2 a : i = B "COM" \/ i = B "CNT" \/ i = B "POP" ->
  sim i w1 w2 -> sim i (snd (step w1 a)) (snd (step w2 a)).
Proof.
  intros Hi S0. destruct (not_with_tag a) eqn:NT.
  2:{ assert (S1 : sim i w2 (snd (step w2 a))).
      { destruct (tag_step w2 a 0 NT) as (_ & EG & ET & EB). repeat split.
        - intros x. now rewrite EG. - intros x _. now rewrite ET.
        - intros u. rewrite EB. now destruct (w_begun w2 u).
        - intros u. symmetry. apply (tag_step w2 a u NT). }
      apply (sim_tag i w1 w2 a NT) in S0. destruct S0 as (G1 & T1 & B1 & H1), S1 as (G2 & T2 & B2 & H2). repeat split.
      - intros x. now rewrite G1, G2. - intros x X. now rewrite T1, T2.
      - intros u. specialize (B1 u). specialize (B2 u).
        destruct (w_begun (snd (step w1 a)) u), (w_begun w2 u), (w_begun (snd (step w2 a)) u); try contradiction; [|trivial].
        intros x. now rewrite B1, B2.
      - intros u. now rewrite H1, H2. }
  destruct S0 as (HG & HT & HB & HH).
  destruct a as [j f|j f|v|v fl b|v j f|v j f|v v']; try discriminate NT; cbn [step].
  - destruct (reserved V22 j); [now repeat split|].
    pose proof (insert_lookup (w_generic w1) j f) as L1. pose proof (insert_lookup (w_generic w2) j f) as L2.
    destruct (insert (w_generic w1) j f) as [g1 b1], (insert (w_generic w2) j f) as [g2 b2]. cbn [fst snd] in *.
    repeat split; [|exact HT|exact HB|exact HH]. intros x. cbn [w_generic]. rewrite L1, L2, !lookup_app. now rewrite HG.
  - pose proof (insert_lookup (w_text w1) j f) as L1. pose proof (insert_lookup (w_text w2) j f) as L2.
    destruct (insert (w_text w1) j f) as [g1 b1], (insert (w_text w2) j f) as [g2 b2]. cbn [fst snd] in *.
    repeat split; [exact HG| |exact HB|exact HH]. intros x X. cbn [w_text]. rewrite L1, L2, !lookup_app. now rewrite HT.
  - repeat split; [exact HG|exact HT| |exact HH]. intros u. cbn [snd w_begun]. unfold put.
    destruct (Nat.eqb u v); [exact HG|apply HB].
  - pose proof (HB v) as Bv. destruct (w_begun w1 v) as [g1|], (w_begun w2 v) as [g2|]; try contradiction; [|now repeat split].
    cbn [snd].
    assert (EP : parse_with g1 (w_text w1) fl b = parse_with g2 (w_text w2) fl b).
    { apply parse_with_ext. intros x. now apply (dispatch_sim i). }
    rewrite EP.
    destruct (parse_with g2 (w_text w2) fl b) as [[fs pad]|e0|ub0|].
    + repeat split; [exact HG|exact HT| |].
      * intros u. cbn [w_begun]. unfold put. destruct (Nat.eqb u v); [trivial|apply HB].
      * intros u. rewrite !holds_put. destruct (Nat.eqb u v); [reflexivity|apply HH].
    + repeat split; [exact HG|exact HT| |exact HH].
      intros u. cbn [w_begun]. unfold put. destruct (Nat.eqb u v); [trivial|apply HB].
    + repeat split; [exact HG|exact HT| |exact HH].
      intros u. cbn [w_begun]. unfold put. destruct (Nat.eqb u v); [trivial|apply HB].
    + repeat split; [exact HG|exact HT| |exact HH].
      intros u. cbn [w_begun]. unfold put. destruct (Nat.eqb u v); [trivial|apply HB].
  - repeat split; [exact HG|exact HT|exact HB|]. intros u. cbn [snd]. rewrite !holds_put.
    destruct (Nat.eqb u v'); [exact (HH v)|apply HH].
Qed.

Lemma sim_after i h : i = B "COM" \/ i = B "CNT" \/ i = B "POP" -> forall w1 w2, sim i w1 w2 -> sim i (after w1 h) (after w2 h).
Proof. intros Hi. induction h as [|a r IH]; intros w1 w2 H; [exact H|]. cbn [after]. apply IH. now apply sim_step. Qed.

Lemma sim_filter h : forall w1 w2, sim (B "COM") w1 w2 -> sim (B "COM") (after w1 h) (after w2 (filter not_with_tag h)).
Proof.
  induction h as [|a r IH]; intros w1 w2 H; [exact H|]. cbn [after filter]. destruct (not_with_tag a) eqn:E.
  - cbn [after]. apply IH. apply sim_step; [now left|exact H].
  - apply IH. now apply sim_tag.
Qed.
End Apps.
