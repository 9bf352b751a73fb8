(** * Lemmas: ID3v2.2 tags. *)
From Verif Require Import Base M_Ints M_Unsync M_Stream M_Payload M_Cloud M_Frame M_Tag23 M_Tag22
  S_Ints S_Stream S_Unsync S_Payload S_Cloud S_Tag S_Tag22
  L_Ints L_Unsync L_Stream L_Payload L_Cloud L_Cloud2 L_Frame L_Tag23 L_Tag23b L_Tag23c L_Tag23d L_Tag23e.

Lemma wire22_inv f w : wire22 f = Ok w -> exists p, write_body (f_body f) = Ok p /\ len p < 2 ^ 24 /\
  w = f_id f ++ be24 (len p) ++ p.
Proof.
  unfold wire22, header22. intros H. apply bind_ok in H as (p & Hp & H). apply bind_ok in H as (h & Hh & H).
  apply Ok_inj in H. subst w. destruct (N.ltb_spec 16777215 (len p)) as [L|L]; [discriminate|].
  apply Ok_inj in Hh. subst h. exists p. split; [exact Hp|]. split; [change (2 ^ 24) with 16777216; lia|].
  now rewrite <- app_assoc.
Qed.

Lemma be24_sum x : x < 2 ^ 24 -> exists a b c, be24 x = [a; b; c] /\ Forall (fun x => x < 256) [a; b; c] /\
  x = 65536 * a + 256 * b + c.
Proof.
  intros H. rewrite be24_spec. eexists _, _, _. split; [reflexivity|]. split.
  - repeat constructor; apply N.mod_lt; lia.
  - change (2 ^ 24) with 16777216 in H. lia.
Qed.

Lemma len3 (l : bytes) : len l = 3 -> exists a b c, l = [a; b; c].
Proof.
  intros H. do 3 (destruct l as [|? l]; [cbn in H; discriminate|]).
  destruct l; [eauto|]. rewrite !len_cons in H. lia.
Qed.

Lemma frames22_cons fuel cb x l after : frames22 (S fuel) cb (x :: l) after =
  let* h := frame_head22 (x :: l) after in
  match h with
  | None => Ok ([], len (x :: l))
  | Some (id, c) =>
      if cb <=? c then Throw InvalidTag
      else
        let* b := parse_payload V22 (kind_of V22 id) (dropN 6 (x :: l) ++ after) c in
        let* (fs, pad) := frames22 fuel cb (dropN (c + 6) (x :: l)) after in
        Ok (mkFrame id no_flags b :: fs, pad)
  end.
Proof. reflexivity. Qed.

Lemma head22_zeros n after : 0 < n -> frame_head22 (repeatN 0 n) after = Ok None.
Proof.
  intros Hn. unfold frame_head22. rewrite len_repeatN.
  assert (Hz : all_zero (repeatN 0 n) = true).
  { unfold all_zero, repeatN. apply forallb_forall. intros x Hx. apply repeat_spec in Hx. now subst. }
  rewrite Hz. destruct (N.leb_spec n 2) as [L|L]; [reflexivity|]. cbn [andb].
  replace n with (3 + (n - 3)) by lia. rewrite repeatN_add. reflexivity.
Qed.

Lemma head22_raw id s0 s1 s2 x xs after : len id = 3 -> hd 0 id <> 0 ->
  frame_head22 (id ++ [s0; s1; s2] ++ x :: xs) after = Ok (Some (id, uint32_from_non_sync_safe3 s0 s1 s2)).
Proof.
  intros Hid Hhd. apply len3 in Hid as (a & b & c & ->). cbn [hd app] in *.
  unfold frame_head22. rewrite !len_cons.
  replace (1 + _ <=? 2) with false by (symmetry; apply N.leb_gt; lia). cbn [andb app].
  replace (a =? 0) with false by (symmetry; now apply N.eqb_neq). reflexivity.
Qed.

Lemma drop22_raw id s0 s1 s2 (p l : bytes) k : len id = 3 -> k = len p + 6 ->
  dropN 6 (id ++ [s0; s1; s2] ++ p ++ l) = p ++ l /\ dropN k (id ++ [s0; s1; s2] ++ p ++ l) = l.
Proof.
  intros Hid ->. rewrite (app_assoc id). split.
  - apply dropN_app_exact. rewrite len_app, Hid. reflexivity.
  - rewrite app_assoc. apply dropN_app_exact. rewrite !len_app, Hid. change (len [s0; s1; s2]) with 3. lia.
Qed.

Definition as_frame22 (x : bytes * body) : frame := mkFrame (fst x) no_flags (snd x).

Lemma laid22_len fs pad l : laid_out22 fs pad l -> (length fs <= length l)%nat.
Proof.
  induction 1 as [|id b p fs pad l s0 s1 s2 Hid Hhd Hk Hb Hp Hne F Hs _ IH]; [cbn; lia|].
  cbn [length]. rewrite !app_length. cbn [length]. lia.
Qed.

Lemma read_laid_out22 fs pad l : laid_out22 fs pad l -> forall fuel cb after, (length fs < fuel)%nat ->
  len l <= cb -> frames22 fuel cb l after = Ok (map as_frame22 fs, pad).
Proof.
  induction 1 as [pad|id b p fs pad l s0 s1 s2 Hid Hhd Hk Hb Hp Hne F Hs _ IH]; intros fuel cb after Hfu Hcb.
  - destruct fuel as [|fuel]; [cbn in Hfu; lia|].
    destruct (N.eq_dec pad 0) as [->|Hn]; [reflexivity|].
    destruct (repeatN 0 pad) as [|x l] eqn:E.
    { apply (f_equal len) in E. rewrite len_repeatN, len_nil in E. lia. }
    rewrite frames22_cons, <- E, head22_zeros by lia. cbn [bind map]. now rewrite len_repeatN.
  - destruct fuel as [|fuel]; [cbn in Hfu; lia|].
    assert (Hd : uint32_from_non_sync_safe3 s0 s1 s2 = len p).
    { repeat (apply Forall_cons_iff in F as [? F]). rewrite nss3_spec by assumption. rewrite Hs.
      change (256 ^ 2) with 65536. lia. }
    destruct (drop22_raw id s0 s1 s2 p l (len p + 6) Hid eq_refl) as [D1 D2].
    assert (HL : len l + len p < cb).
    { rewrite !len_app in Hcb. change (len [s0; s1; s2]) with 3 in Hcb. lia. }
    assert (Hw : frame_head22 (id ++ [s0; s1; s2] ++ p ++ l) after = Ok (Some (id, len p))).
    { rewrite <- Hd. destruct p as [|x p']; [congruence|]. exact (head22_raw id s0 s1 s2 x (p' ++ l) after Hid Hhd). }
    assert (Hx : exists x w', id ++ [s0; s1; s2] ++ p ++ l = x :: w').
    { destruct id; [now elim Hhd|]. cbn [app]. eauto. }
    destruct Hx as (x & w' & Ew). rewrite Ew in *.
    rewrite frames22_cons, Hw. cbn [bind]. replace (cb <=? len p) with false by lia.
    rewrite D1, <- app_assoc.
    destruct (body_roundtrip V22 b Hb) as (p' & E' & _ & HP). rewrite Hp in E'.
    apply Ok_inj in E'. subst p'.
    rewrite Hk, (parse_payload_exact V22 _ p (l ++ after) b) by now apply HP.
    cbn [bind]. rewrite D2, IH by (cbn in Hfu; lia). reflexivity.
Qed.

Lemma read_conforming22 f fs pad l buf : laid_out22 fs pad l ->
  (if N.testbit f 7 then resynchronise buf else buf) = l ->
  parse_body22 f buf = Ok (mkTag22 (Some (N.testbit f 7)) (N.testbit f 6) pad (map new_frame (map as_frame22 fs))).
Proof.
  intros HL Hb. unfold parse_body22. change 128 with (2 ^ 7). change 64 with (2 ^ 6). rewrite !testbit_land.
  rewrite Hb. set (after := if N.testbit f 7 then resync_rest buf else []). clearbody after. cbv zeta.
  pose proof (laid22_len _ _ _ HL) as Hl.
  rewrite (read_laid_out22 fs pad l HL) by lia. reflexivity.
Qed.

Lemma read_conforming22_stream r f fs pad l buf pre post e : laid_out22 fs pad l ->
  (if N.testbit f 7 then resynchronise buf else buf) = l ->
  exists t, read22 (mkInfo 2 r f (len buf)) (mkIs (pre ++ buf ++ post) (len pre) e 0) =
    (Ok t, mkIs (pre ++ buf ++ post) (len pre + len buf) e 0) /\
  map c_frame (t2_frames t) = map (fun x => mkFrame (fst x) no_flags (snd x)) fs /\
  t2_pad t = pad /\ t2_unsync t = Some (N.testbit f 7) /\ t2_comp t = N.testbit f 6.
Proof.
  intros HL Hb. eexists. split.
  - unfold read22. cbn [i_flags i_size]. apply parse_stream_ok. exact (read_conforming22 f fs pad l buf HL Hb).
  - cbn [t2_frames t2_pad t2_unsync t2_comp]. rewrite map_map. cbn [c_frame new_frame].
    rewrite map_id. auto.
Qed.

(** ** Sizes *)
Lemma size22_inv t u n t' : size22 t u = Ok (n, t') ->
  t2_unsync t' = t2_unsync t /\ t2_comp t' = t2_comp t /\ t2_pad t' = t2_pad t /\
  refreshed wire22 (t2_frames t) (t2_frames t') /\
  n = t2_pad t' + sum_len (map (cached22 u) (t2_frames t')).
Proof.
  unfold size22. intros H. apply bind_ok in H as (fs & Hf & H). apply Ok_inj in H. injection H as <- <-.
  cbn. repeat (split; [reflexivity|]). split; [now apply map_refresh_spec|reflexivity].
Qed.

Lemma write22_inv t u b t' : write22 t u = Ok (b, t') ->
  exists n h, size22 t u = Ok (n, t') /\
    tag_header 2 0 (N.lor (flags22 t) (bit_if u 128)) n = Ok h /\
    b = h ++ concat (map (cached22 u) (t2_frames t')) ++ repeatN 0 (t2_pad t').
Proof.
  unfold write22. cbv zeta. intros H. apply bind_ok in H as ([n t1] & Hs & H).
  apply bind_ok in H as (h & Hh & H). apply bind_ok in H as (fs & Hf & H).
  destruct (size22_inv t u n t1 Hs) as (_ & _ & _ & (_ & Hcl & _) & _).
  rewrite map_refresh_clean in Hf by exact Hcl. apply Ok_inj in Hf. subst fs.
  apply Ok_inj in H. injection H as Hb Ht.
  assert (t1 = t') as <- by (rewrite <- Ht; now destruct t1). exists n, h. auto.
Qed.

Lemma size_is_written22 t u b t' : write22 t u = Ok (b, t') ->
  exists n, size22 t u = Ok (n, t') /\ len b = 10 + n /\
  exists z0 z1 z2 z3 rest, b = B "ID3" ++ [2; 0; N.lor (flags22 t) (bit_if u 128); z0; z1; z2; z3] ++ rest /\
    Forall (fun z => z < 128) [z0; z1; z2; z3] /\ n = positional 128 [z0; z1; z2; z3].
Proof.
  intros H. apply write22_inv in H as (n & h & Hs & Hh & ->). exists n. split; [exact Hs|].
  apply tag_header_inv in Hh as (z0 & z1 & z2 & z3 & -> & F & P & _).
  destruct (size22_inv _ _ _ _ Hs) as (_ & _ & _ & _ & E). split.
  - rewrite E, !len_app, sum_len_concat, len_repeatN. change (len (B "ID3")) with 3.
    change (len [2; 0; N.lor (flags22 t) (bit_if u 128); z0; z1; z2; z3]) with 7. lia.
  - eexists z0, z1, z2, z3, _. split; [|auto]. rewrite <- app_assoc. reflexivity.
Qed.

Lemma writable22_iff t u n t' : size22 t u = Ok (n, t') ->
  (n < 2 ^ 28 -> exists b, write22 t u = Ok (b, t')) /\
  (2 ^ 28 <= n -> exists e, write22 t u = Throw e).
Proof.
  intros Hs. destruct (size22_inv t u n t' Hs) as (_ & _ & _ & (_ & Hcl & _) & _). split; intros Hn.
  - destruct (sync_safe_roundtrip_l n Hn) as (b0 & b1 & b2 & b3 & E & _). eexists.
    unfold write22. cbv zeta. rewrite Hs. cbn [bind]. unfold tag_header. rewrite E. cbn [bind].
    rewrite map_refresh_clean by exact Hcl. cbn [bind]. destruct t'. reflexivity.
  - unfold write22. cbv zeta. rewrite Hs. cbn [bind]. unfold tag_header.
    rewrite ssfu_throw by exact Hn. cbn [bind]. eauto.
Qed.

(** ** Round trips *)
Definition settled22 (c : cframe) : Prop :=
  wf_frame V22 (c_frame c) /\ plain_flags (c_frame c) /\ wire22 (c_frame c) = Ok (c_plain c) /\
  c_unsync c = unsynchronise (c_plain c) false.

Lemma map_refresh_coherent22 l : forall l', map_refresh wire22 l = Ok l' -> Forall coherent22 l -> Forall coherent22 l'.
Proof.
  induction l as [|c r IH]; intros l' H F; cbn [map_refresh] in H.
  - apply Ok_inj in H. now subst l'.
  - apply bind_ok in H as (c' & Hc & H). apply bind_ok in H as (r' & Hr & H). apply Ok_inj in H. subst l'.
    apply Forall_cons_iff in F as [Fc F]. constructor; [|now apply IH].
    unfold refresh in Hc. destruct (c_dirty c).
    + apply bind_ok in Hc as (ce & Hw & Hc). apply Ok_inj in Hc. subst c'. unfold coherent22. cbn. auto.
    + apply Ok_inj in Hc. now subst c'.
Qed.

Lemma settled22_post t u n t' : wf_tag22 t -> size22 t u = Ok (n, t') -> Forall settled22 (t2_frames t').
Proof.
  intros Hw Hs. pose proof Hs as Hs0. apply size22_inv in Hs as (_ & _ & _ & (R1 & R2 & _) & _). unfold wf_tag22 in Hw.
  assert (Hco : Forall coherent22 (t2_frames t')).
  { unfold size22 in Hs0. apply bind_ok in Hs0 as (fs & Hf & H). apply Ok_inj in H. injection H as _ <-.
    cbn [t2_frames]. apply (map_refresh_coherent22 _ _ Hf). revert Hw. apply Forall_impl. now intros c (_ & _ & H). }
  assert (Hwf : Forall (fun f => wf_frame V22 f /\ plain_flags f) (map c_frame (t2_frames t'))).
  { rewrite R1. apply Forall_map. revert Hw. apply Forall_impl. now intros c (H1 & H2 & _). }
  apply Forall_map in Hwf. rewrite Forall_forall in *. intros c Hc. destruct (Hwf c Hc) as [W P].
  destruct (Hco c Hc (R2 c Hc)) as [C1 C2]. unfold settled22. auto.
Qed.

Lemma settled22_hd c : settled22 c -> (c_plain c <> [] /\ hd_error (c_plain c) <> Some 0) /\
  (c_unsync c <> [] /\ hd_error (c_unsync c) <> Some 0) /\ strip (c_unsync c) = c_plain c.
Proof.
  intros ((Hid & Hhd & _) & _ & Hw & Hu). apply wire22_inv in Hw as (p & _ & _ & E).
  assert (A : c_plain c <> [] /\ hd_error (c_plain c) <> Some 0).
  { rewrite E. destruct (f_id (c_frame c)); [now elim Hhd|]. cbn in *. split; congruence. }
  split; [exact A|]. rewrite Hu, strip_unsynchronise, unsynchronise_hd. destruct A as [A1 A2].
  split; [|reflexivity]. split; [|exact A2]. intros E0.
  apply (f_equal (@hd_error N)) in E0. rewrite unsynchronise_hd in E0. destruct (c_plain c); [congruence|discriminate].
Qed.

Lemma settled22_laid l pad : Forall settled22 l ->
  laid_out22 (map (fun c => (f_id (c_frame c), f_body (c_frame c))) l) pad
             (concat (map c_plain l) ++ repeatN 0 pad).
Proof.
  induction 1 as [|c l (W & _ & Hw & _) _ IH]; [apply laid_pad22|]. cbn [map concat].
  apply wire22_inv in Hw as (p & Hp & Hl & ->). destruct (be24_sum _ Hl) as (s0 & s1 & s2 & E & F & S').
  rewrite E, <- !app_assoc. pose proof (wf_nonempty _ _ _ W Hp) as Hne.
  destruct W as (Hid & Hhd & Hk & Hb & _). now apply laid_frame22.
Qed.

Lemma unaffected_strip l : (forall i, needs_protection l false i = false) -> strip l = l.
Proof.
  induction l as [|b r IH]; [reflexivity|]. intros H. specialize (IH (fun i => H (S i))).
  specialize (H O). unfold needs_protection in H. cbn [nth_error] in H.
  cbn [strip]. destruct (N.eqb_spec b 255) as [->|Hb].
  - destruct r as [|q r]; [reflexivity|]. destruct (N.eqb_spec q 0) as [->|Hq]; [discriminate|].
    exact (f_equal (cons _) IH).
  - exact (f_equal (cons _) IH).
Qed.

Lemma body22_settled t u n t' : wf_tag22 t -> size22 t u = Ok (n, t') ->
  (t2_unsync t = Some true /\ u = false \/ Forall unaffected22 (map c_frame (t2_frames t))) ->
  exists pad,
    (if (is_true (t2_unsync t) || u) then
       resynchronise (concat (map (cached22 u) (t2_frames t')) ++ repeatN 0 (t2_pad t'))
     else concat (map (cached22 u) (t2_frames t')) ++ repeatN 0 (t2_pad t')) =
    concat (map c_plain (t2_frames t')) ++ repeatN 0 pad /\
    (pad = t2_pad t \/ (is_true (t2_unsync t) || u) = true /\ pad + 1 = t2_pad t).
Proof.
  intros Hw Hs Hc. pose proof (settled22_post _ _ _ _ Hw Hs) as Hse.
  destruct (size22_inv t u n t' Hs) as (_ & _ & Ep & (R1 & _) & _). rewrite <- Ep.
  assert (Hun : Forall unaffected22 (map c_frame (t2_frames t)) ->
          map c_unsync (t2_frames t') = map c_plain (t2_frames t') /\
          Forall (fun c => strip (c_plain c) = c_plain c) (t2_frames t') \/ False).
  { rewrite <- R1. intros Hf. left.
    assert (Hf' : forall c, In c (t2_frames t') -> unaffected22 (c_frame c)).
    { rewrite Forall_forall in Hf. intros c Hin. apply Hf. now apply in_map. }
    clear Hf. rename Hf' into Hf. rewrite Forall_forall in Hse. split.
    - apply map_ext_in. intros c Hin.
      destruct (Hse c Hin) as (_ & _ & Hwc & Hl). destruct (Hf c Hin _ Hwc) as [B1 B2].
      rewrite Hl. now apply unaffected_unsync.
    - rewrite Forall_forall. intros c Hin. destruct (Hse c Hin) as (_ & _ & Hwc & _).
      exact (unaffected_strip _ (proj2 (Hf c Hin _ Hwc))). }
  assert (Hstrip : forall g : cframe -> bytes, 
     Forall (fun c => strip (g c) = c_plain c /\ g c <> [] /\ hd_error (g c) <> Some 0) (t2_frames t') ->
     exists pad, resynchronise (concat (map g (t2_frames t')) ++ repeatN 0 (t2_pad t')) =
       concat (map c_plain (t2_frames t')) ++ repeatN 0 pad /\ (pad = t2_pad t' \/ pad + 1 = t2_pad t')).
  { intros g Hg. rewrite resynchronise_strip.
    destruct (strip_app_zeros (concat (map g (t2_frames t'))) (t2_pad t')) as (pad & E & Hp). exists pad.
    split; [|exact Hp]. rewrite E. f_equal.
    assert (F : Forall (fun p => strip (snd p) = fst p /\ snd p <> [] /\ hd_error (snd p) <> Some 0)
              (map (fun c => (c_plain c, g c)) (t2_frames t'))) by now apply Forall_map.
    apply strip_concat in F. rewrite !map_map in F. exact F. }
  destruct (is_true (t2_unsync t) || u) eqn:Ef.
  - assert (Hg : Forall (fun c => strip (cached22 u c) = c_plain c /\ cached22 u c <> [] /\
                                  hd_error (cached22 u c) <> Some 0) (t2_frames t')).
    { destruct u; unfold cached22.
      - destruct Hc as [[_ Hc]|Hc]; [discriminate|]. destruct (Hun Hc) as [[_ H]|[]].
        rewrite Forall_forall in *. intros c Hin. destruct (settled22_hd c (Hse c Hin)) as ([? ?] & _ & _). auto.
      - revert Hse. apply Forall_impl. intros c H. destruct (settled22_hd c H) as (_ & [? ?] & ?). auto. }
    destruct (Hstrip _ Hg) as (pad & E & Hp). exists pad. split; [exact E|]. destruct Hp; auto.
  - exists (t2_pad t'). split; [|auto]. f_equal. destruct u; [now rewrite orb_true_r in Ef|].
    unfold cached22. destruct Hc as [[Hc _]|Hc]; [rewrite Hc in Ef; discriminate|].
    destruct (Hun Hc) as [[E _]|[]]. exact (f_equal (@concat N) E).
Qed.

Lemma flags22_bits t u : N.testbit (N.lor (flags22 t) (bit_if u 128)) 7 = (is_true (t2_unsync t) || u) /\
  N.testbit (N.lor (flags22 t) (bit_if u 128)) 6 = t2_comp t.
Proof. unfold flags22. destruct (t2_unsync t) as [[|]|], (t2_comp t), u; split; reflexivity. Qed.

Lemma roundtrip22 t u b t' pre post e : wf_tag22 t -> write22 t u = Ok (b, t') ->
  (t2_unsync t = Some true /\ u = false \/ Forall unaffected22 (map c_frame (t2_frames t))) ->
  exists info t'',
    looking_at_id3v2 false (mkIs (pre ++ b ++ post) (len pre) e 0) =
      (Ok (Some info), mkIs (pre ++ b ++ post) (len pre + 10) e 0) /\ i_version info = 2 /\
    read22 info (mkIs (pre ++ b ++ post) (len pre + 10) e 0) =
      (Ok t'', mkIs (pre ++ b ++ post) (len pre + len b) e 0) /\
    map c_frame (t2_frames t'') = map c_frame (t2_frames t) /\ t2_comp t'' = t2_comp t /\
    (t2_pad t'' = t2_pad t \/ t2_unsync t'' = Some true /\ t2_pad t'' + 1 = t2_pad t).
Proof.
  intros Hw H Hc. pose proof H as H0. apply write22_inv in H as (n & h & Hs & Hh & Eb).
  destruct (size_is_written22 t u b t' H0) as (n0 & Hs0 & Hl & _). rewrite Hs in Hs0.
  apply Ok_inj in Hs0. injection Hs0 as <-.
  destruct (body22_settled t u n t' Hw Hs Hc) as (pad & B1 & B2).
  destruct (flags22_bits t u) as [F7 F6].
  destruct (tag_header_inv _ _ _ _ _ Hh) as (z0 & z1 & z2 & z3 & Eh & Fz & _ & Dz & _).
  set (f := N.lor (flags22 t) (bit_if u 128)) in *.
  pose proof (settled22_post _ _ _ _ Hw Hs) as Hse.
  set (body := concat (map (cached22 u) (t2_frames t')) ++ repeatN 0 (t2_pad t')) in *.
  assert (Hbl : len body = n).
  { rewrite Eb, len_app, Eh in Hl. cbn [B app] in Hl. rewrite !len_cons in Hl. change (len (@nil N)) with 0 in Hl. lia. }
  rewrite <- F7 in B1.
  pose proof (read_conforming22_stream 0 f _ pad _ body (pre ++ h) post e (settled22_laid _ pad Hse) B1)
    as (t'' & Hr & R1 & R2 & R3 & R4).
  exists (mkInfo 2 0 f n), t''. split; [|split; [reflexivity|]].
  - rewrite looking_at_eq by reflexivity. cbn [s_data s_pos s_exc].
    assert (E : info_at (pre ++ b ++ post) (len pre) = Some (mkInfo 2 0 f n)).
    { unfold info_at, slice. rewrite dropN_app_exact by reflexivity. rewrite Eb, <- app_assoc.
      rewrite takeN_app_exact by (rewrite Eh; reflexivity). rewrite Eh.
      change (B "ID3") with [73; 68; 51]. cbn [app classify_header N.eqb Pos.eqb andb negb].
      repeat (apply Forall_cons_iff in Fz as [? Fz]).
      repeat match goal with |- context [?x <? 128] => replace (x <? 128) with true by lia end.
      cbn [andb]. now rewrite Dz. }
    rewrite E. reflexivity.
  - assert (Ehl : len h = 10) by (rewrite Eh; reflexivity).
    rewrite <- app_assoc, (app_assoc h), <- Eb, len_app, Ehl, Hbl in Hr.
    replace (len pre + 10 + n) with (len pre + len b) in Hr by lia. split; [exact Hr|].
    split; [|split; [now rewrite R4|]].
    + rewrite R1, map_map. cbn [fst snd].
      destruct (size22_inv t u n t' Hs) as (_ & _ & _ & (Q1 & _) & _). rewrite <- Q1.
      apply map_ext_in. intros c Hin. rewrite Forall_forall in Hse. destruct (Hse c Hin) as (_ & Hpl & _).
      unfold plain_flags in Hpl. destruct (c_frame c) as [i fl bb]. cbn in *. now subst fl.
    + rewrite R2, R3, F7. destruct B2 as [B2|[B2 B3]]; [auto|right]. now rewrite B2.
Qed.

(** ** Termination, errors, witnesses *)
Lemma head22_nt l after : frame_head22 l after <> NonTerm.
Proof.
  unfold frame_head22. destruct (_ && _); [discriminate|].
  destruct (l ++ after) as [|? [|? [|? ?]]]; try discriminate.
  destruct (_ && _); [discriminate|].
  destruct l as [|? [|? [|? [|? [|? [|? [|? ?]]]]]]]; discriminate.
Qed.
Lemma frames22_nt cb fuel : forall l after, (length l < fuel)%nat -> frames22 fuel cb l after <> NonTerm.
Proof.
  induction fuel as [|fuel IH]; intros l after H; [lia|]. destruct l as [|x l]; [discriminate|].
  rewrite frames22_cons. apply bind_nt; [apply head22_nt|].
  intros [[id c]|] _; [|discriminate].
  destruct (cb <=? c); [discriminate|]. apply bind_nt; [apply parse_payload_nt|]. intros b _.
  apply bind_nt; [|intros [? ?]; discriminate]. apply IH. rewrite dropN_skipn, skipn_length. cbn [length] in *. lia.
Qed.
Lemma parse_body22_nt f buf : parse_body22 f buf <> NonTerm.
Proof.
  unfold parse_body22. cbv zeta. apply bind_nt; [apply frames22_nt; lia|]. intros [? ?]. discriminate.
Qed.

Lemma read22_error r f buf pre post e x : parse_body22 f buf = Throw x ->
  read22 (mkInfo 2 r f (len buf)) (mkIs (pre ++ buf ++ post) (len pre) e 0) =
  (Throw x, mkIs (pre ++ buf ++ post) (len pre) e 0).
Proof. apply parse_stream_throw. Qed.

Lemma overread22_refuted : exists buf, parse_body22 0 buf = UB OutOfBounds.
Proof. exists (B "TT2" ++ [0; 0; 7; 0; 65]). reflexivity. Qed.

Lemma short22_refuted : parse_body22 0 [1] = UB OutOfBounds.
Proof. reflexivity. Qed.

Lemma roundtrip22_refuted : forall u : bool, exists t b t', wf_tag22 t /\ t2_unsync t = Some false /\
  write22 t u = Ok (b, t') /\
  forall t'', parse_body22 (nth 5 b 0) (dropN 10 b) = Ok t'' ->
    map c_frame (t2_frames t'') <> map c_frame (t2_frames t).
Proof.
  intros u. exists (mkTag22 (Some false) false 3 [new_frame (title22 [255; 0; 65])]).
  destruct u; eexists _, _; (split; [wf1|]); (split; [reflexivity|]); (split; [vm_compute; reflexivity|]);
    intros t'' H E; vm_compute in H; try discriminate H; apply Ok_inj in H; subst t''; vm_compute in E; discriminate E.
Qed.
