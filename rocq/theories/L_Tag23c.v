(** * Lemmas: ID3v2.3 tags survive a write and re-read. *)
From Verif Require Import Base M_Ints M_Unsync M_Stream M_Payload M_Cloud M_Frame M_Tag23
  S_Ints S_Stream S_Unsync S_Payload S_Cloud S_Tag S_Tag23
  L_Ints L_Unsync L_Stream L_Payload L_Cloud L_Cloud2 L_Frame L_Tag23 L_Tag23b.

Lemma be32_app_decode x r : x < 2 ^ 32 -> exists a b c d, be32 x ++ r = a :: b :: c :: d :: r /\
  uint32_from_non_sync_safe4 a b c d = x.
Proof.
  intros H. destruct (be32_list x) as (a & b & c & d & E). exists a, b, c, d. rewrite E.
  split; [reflexivity|]. now apply (be32_decode x).
Qed.

Lemma parse_ext_wire x r : x_pad x < 2 ^ 32 -> (forall c, x_crc x = Some c -> c < 2 ^ 32) ->
  parse_ext23 (ext_wire23 x ++ r) = Ok (mkExt (x_pad x) (x_crc x) true [] [] 0) /\
  len (ext_wire23 x) = ext_size23 x + 4.
Proof.
  intros Hp Hc. unfold ext_wire23, ext_size23. destruct (x_crc x) as [c|] eqn:E; cbn [is_some bit_if].
  - specialize (Hc c eq_refl). split.
    + change (be32 10) with [0; 0; 0; 10]. rewrite <- !app_assoc. cbn [app].
      unfold parse_ext23.
      change (uint32_from_non_sync_safe4 0 0 0 10) with 10.
      change (negb (N.land 128 128 =? 0)) with true. cbn [andb orb negb N.eqb Pos.eqb].
      change (dropN 6 (0 :: 0 :: 0 :: 10 :: 128 :: 0 :: be32 (x_pad x) ++ be32 c ++ r)) with
        (be32 (x_pad x) ++ be32 c ++ r).
      destruct (be32_app_decode (x_pad x) (be32 c ++ r) Hp) as (p0 & p1 & p2 & p3 & -> & Ep).
      destruct (be32_app_decode c r Hc) as (c0 & c1 & c2 & c3 & -> & Ec).
      now rewrite Ep, Ec.
    + rewrite !len_app, !be32_len. reflexivity.
  - split.
    + change (be32 6) with [0; 0; 0; 6]. rewrite <- !app_assoc. cbn [app].
      unfold parse_ext23.
      change (uint32_from_non_sync_safe4 0 0 0 6) with 6.
      change (negb (N.land 0 128 =? 0)) with false. cbn [andb orb negb N.eqb Pos.eqb].
      change (dropN 6 (0 :: 0 :: 0 :: 6 :: 0 :: 0 :: be32 (x_pad x) ++ r)) with
        (be32 (x_pad x) ++ r).
      destruct (be32_app_decode (x_pad x) r Hp) as (p0 & p1 & p2 & p3 & -> & Ep).
      now rewrite Ep.
    + rewrite !len_app, !be32_len. reflexivity.
Qed.

Lemma wire23_hd z f w : wf_frame V23 f -> status_only f -> wire23 z f = Ok w ->
  w <> [] /\ hd_error w <> Some 0.
Proof.
  intros (Hid & Hhd & _) Sf H. destruct (wire23_inv z f w Sf H) as (p & _ & _ & ->).
  destruct (f_id f) as [|a r]; [now elim Hhd|]. cbn. split; [discriminate|].
  cbn in Hhd. congruence.
Qed.

Lemma plain_status f : plain_flags f -> status_only f /\ shift_flags f = f.
Proof.
  unfold plain_flags, status_only, shift_flags. intros H. rewrite H. split.
  - unfold no_flags. eauto.
  - destruct f as [i fl b]. cbn in *. now subst fl.
Qed.

(** What the frames of a tag that has just been sized or written look like. *)
Definition settled (z : zlib) (c : cframe) : Prop :=
  wf_frame V23 (c_frame c) /\ status_only (c_frame c) /\ wire23 z (c_frame c) = Ok (c_plain c) /\
  exists l, c_unsync c = unsynchronise (c_plain c) l.

Lemma settled_wired z l : Forall (settled z) l -> Forall2 (wired z) (map c_frame l) (map c_plain l).
Proof.
  induction 1 as [|c l (H1 & H2 & H3 & _) _ IH]; [constructor|]. cbn [map]. constructor; [|exact IH].
  exact (conj H1 (conj H2 H3)).
Qed.

Lemma settled_strip z l : Forall (settled z) l ->
  strip (concat (map c_unsync l)) = concat (map c_plain l).
Proof.
  intros H.
  assert (F : Forall (fun p => strip (snd p) = fst p /\ snd p <> [] /\ hd_error (snd p) <> Some 0)
              (map (fun c => (c_plain c, c_unsync c)) l)).
  { induction H as [|c l (H1 & H2 & H3 & b & H4) _ IH]; [constructor|]. cbn [map].
    constructor; [|exact IH]. cbn [fst snd]. destruct (wire23_hd z _ _ H1 H2 H3) as [E1 E2].
    rewrite H4, strip_unsynchronise, unsynchronise_hd. repeat split; auto.
    intros E. apply (f_equal (@hd_error N)) in E. rewrite unsynchronise_hd in E.
    destruct (c_plain c); [congruence|discriminate]. }
  apply strip_concat in F. rewrite !map_map in F. exact F.
Qed.

Lemma settled_hd z c l : Forall (settled z) (c :: l) -> hd_error (concat (map c_unsync (c :: l))) <> Some 0 /\
  concat (map c_unsync (c :: l)) <> [].
Proof.
  intros H. apply Forall_cons_iff in H as [(H1 & H2 & H3 & b & H4) _]. cbn [map concat].
  destruct (wire23_hd z _ _ H1 H2 H3) as [E1 E2].
  assert (Hne : c_unsync c <> []).
  { rewrite H4. intros E. apply (f_equal (@hd_error N)) in E. rewrite unsynchronise_hd in E.
    destruct (c_plain c); [congruence|discriminate]. }
  split; [|destruct (c_unsync c); [congruence|discriminate]].
  rewrite hd_error_app by exact Hne. now rewrite H4, unsynchronise_hd.
Qed.

(** ** Flags *)
Lemma flags_bits a b c u :
  let f := N.lor (bit_if a 128 + bit_if b 64 + bit_if c 32) (bit_if u 128) in
  negb (N.land f 128 =? 0) = (a || u) /\ negb (N.land f 64 =? 0) = b /\ negb (N.land f 32 =? 0) = c.
Proof. destruct a, b, c, u; repeat split; reflexivity. Qed.

(** ** The body of a tag *)
Lemma parse_frames_part z passes cb fs ws n after : Forall2 (wired z) fs ws -> (0 < passes)%nat ->
  len (concat ws) <= cb ->
  let l := concat ws ++ repeatN 0 n in
  encr_passes23 z passes l after 0 [] false = Ok (n, []) /\
  frames23 z (S (length l)) cb l after = Ok (map shift_flags fs).
Proof.
  intros H Hp Hcb l. pose proof (wired_length z fs ws H) as Hl.
  assert (Hl' : (length fs <= length l)%nat) by (unfold l; rewrite app_length; lia).
  split; [now apply (encr_passes_all z fs ws)|].
  apply frames23_all; [assumption..|]. fold l. lia.
Qed.

Definition is_true (o : option bool) : bool := match o with Some true => true | _ => false end.

Definition ext_part (x : option ext23) : bytes := match x with Some x => ext_wire23 x | None => [] end.
Definition ext_ok (x : option ext23) : Prop :=
  match x with
  | None => True
  | Some x => x_pad x < 2 ^ 32 /\ (forall c, x_crc x = Some c -> c < 2 ^ 32)
  end.
Definition new_ext (x : option ext23) : option ext23 :=
  match x with Some x => Some (mkExt (x_pad x) (x_crc x) true [] [] 0) | None => None end.

Lemma parse_body23_ok z passes a b x fs ws n buf u l0 after :
  Forall2 (wired z) fs ws -> (0 < passes)%nat -> ext_ok x ->
  l0 = ext_part x ++ concat ws ++ repeatN 0 n ->
  (if a || u then resynchronise buf else buf) = l0 ->
  (if a || u then resync_rest buf else []) = after ->
  parse_body23 z passes (N.lor (bit_if a 128 + bit_if (is_some x) 64 + bit_if b 32) (bit_if u 128)) buf =
  Ok (mkTag23 (Some (a || u)) b (new_ext x) n (map new_frame (map shift_flags fs))).
Proof.
  intros Hw Hp Hx El0 Hl0 Hafter. unfold parse_body23.
  destruct (flags_bits a (is_some x) b u) as (F1 & F2 & F3). rewrite F1, F2, F3.
  rewrite Hl0, Hafter. cbv zeta.
  assert (Hcb : len (concat ws) <= len l0) by (rewrite El0, !len_app; lia).
  destruct (parse_frames_part z passes (len l0) fs ws n after Hw Hp Hcb) as [P1 P2].
  destruct x as [x|]; cbn [is_some ext_part new_ext ext_ok] in *.
  - destruct Hx as [Hx1 Hx2].
    destruct (parse_ext_wire x ((concat ws ++ repeatN 0 n) ++ after) Hx1 Hx2) as [Q1 Q2].
    rewrite El0 at 1. rewrite <- app_assoc, Q1. cbn [bind].
    change (ext_size23 (mkExt (x_pad x) (x_crc x) true [] [] 0)) with (ext_size23 x).
    assert (Hd : dropN (ext_size23 x + 4) l0 = concat ws ++ repeatN 0 n)
      by (rewrite El0; now apply dropN_app_exact).
    rewrite Hd, P1. cbn [bind]. rewrite P2. reflexivity.
  - cbn [app] in El0. cbn [bind]. rewrite <- El0 in P1, P2. rewrite P1. cbn [bind]. rewrite P2. reflexivity.
Qed.

Lemma unaffected_unsync l : is_bytes l -> (forall i, needs_protection l false i = false) ->
  unsynchronise l false = l.
Proof.
  intros Hb H.
  induction l as [|b r IH]; [reflexivity|]. apply Forall_cons_iff in Hb as [Hb0 Hr].
  assert (IH' : unsynchronise r false = r).
  { apply IH; [exact Hr|]. intros i. exact (H (S i)). }
  cbn [unsynchronise]. destruct (N.eqb_spec b 255) as [->|Hne]; [|now rewrite IH'].
  destruct r as [|q r]; [reflexivity|]. specialize (H O). unfold needs_protection in H.
  cbn [nth_error] in H. apply Forall_cons_iff in Hr as [Hq _].
  rewrite land224_ge by exact Hq. rewrite H. now rewrite IH'.
Qed.

Lemma ext_wire_bytes x : is_bytes (ext_wire23 x).
Proof.
  unfold ext_wire23. apply is_bytes_app; split; [apply be32_bytes|].
  apply is_bytes_app; split; [destruct (is_some (x_crc x)); repeat constructor|].
  apply is_bytes_app; split; [apply be32_bytes|]. destruct (x_crc x); [apply be32_bytes|constructor].
Qed.

Definition post_ext (z : zlib) (x : option ext23) : Prop :=
  match x with
  | None => True
  | Some x => x_plain x = ext_wire23 x /\ x_unsync x = unsynchronise (ext_wire23 x) false
  end.

Lemma size23_post z t u n t' : crc_range z -> wf_tag23 z t -> size23 z t u = Ok (n, t') ->
  Forall (settled z) (t3_frames t') /\
  post_ext z (t3_ext t') /\ ext_ok (t3_ext t').
Proof.
  intros Hz [Hf Hx] Hs. pose proof Hs as Hs0.
  apply size23_inv in Hs as (_ & _ & _ & (R1 & R2 & R3) & Hrel & _ & Hp).
  assert (Hco : Forall (coherent (wire23 z)) (t3_frames t')).
  { apply R3. revert Hf. apply Forall_impl. now intros c (_ & _ & H). }
  assert (Hwf : Forall (fun f => wf_frame V23 f /\ status_only f) (map c_frame (t3_frames t'))).
  { rewrite R1. apply Forall_map. revert Hf. apply Forall_impl. now intros c (H1 & H2 & _). }
  apply Forall_map in Hwf. split; [|split].
  - rewrite Forall_forall in *. intros c Hc. destruct (Hwf c Hc) as [W P].
    destruct (Hco c Hc (R2 c Hc)) as [C1 C2]. split; [exact W|]. split; [exact P|].
    split; [exact C1|]. destruct C2; eauto.
  - unfold post_ext. destruct (t3_ext t') as [x'|] eqn:E'; [|exact I].
    destruct (t3_ext t) as [x|] eqn:E; [|destruct Hrel]. destruct Hrel as (_ & _ & D & C).
    apply C; [|exact D]. unfold ext_coherent. apply Hx.
  - unfold ext_ok. destruct (t3_ext t') as [x'|] eqn:E'; [|exact I].
    destruct (t3_ext t) as [x|] eqn:E; [|destruct Hrel]. destruct Hrel as (P & C & _ & _).
    rewrite P. split; [apply Hx|]. intros c Hc.
    unfold prep_ext in Hp. rewrite E', Hc in Hp. cbn [is_some] in Hp.
    apply bind_ok in Hp as (fs & _ & Hp). apply Ok_inj in Hp. apply (f_equal t3_ext) in Hp.
    cbn [t3_ext] in Hp. rewrite E' in Hp. injection Hp as Hp.
    pose proof (ext_crc_spec z x' fs) as (_ & C2 & _).
    pose proof (ext_refresh_spec (ext_crc z x' fs)) as (_ & R2' & _). rewrite Hp in R2'. cbv zeta in R2'.
    rewrite R2', C2 in Hc. injection Hc as <-.
    destruct fs as [|c0 fs] using rev_ind; [apply Hz|]. rewrite fold_left_app. apply Hz.
Qed.
