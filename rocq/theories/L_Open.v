(** * Lemmas: tags constructed straight from a stream. *)
From Verif Require Import Base M_Ints M_Stream M_Frame M_Tag22 M_Tag23 M_Tag24 M_Open S_Ints S_Stream L_Ints L_Stream L_Tag23d.

Lemma half_failed_eq here e d p :
  half_failed here e (mkIs d p all_bits 6) =
  (Throw IosFailure, if N.land 6 e =? 0 then mkIs d here e 0 else mkIs d p e 6).
Proof.
  unfold half_failed, sbind, set_exc. cbn [s_data s_pos s_state].
  destruct (N.land 6 e =? 0); reflexivity.
Qed.

(** Both halves on a good stream: all five bytes are there. *)
Lemma half_read (here e : N) d p : len (slice p 5 d) = 5 ->
  scatch (sread 5) (half_failed here e) (mkIs d p all_bits 0) =
  (Ok (slice p 5 d), mkIs d (p + 5) all_bits 0).
Proof.
  intros H. unfold scatch. rewrite sread_good by (reflexivity || exact H). reflexivity.
Qed.

(** They are not. *)
Lemma half_short (here e : N) d p : len (slice p 5 d) <> 5 ->
  scatch (sread 5) (half_failed here e) (mkIs d p all_bits 0) =
  (Throw IosFailure, if N.land 6 e =? 0 then mkIs d here e 0
                     else mkIs d (p + len (slice p 5 d)) e 6).
Proof.
  intros H. unfold scatch. rewrite sread_short_throw by (reflexivity || exact H).
  apply half_failed_eq.
Qed.

Lemma open_half_eq d p e : len (slice p 5 d) = 5 ->
  open_half (mkIs d p e 0) =
  (Ok (fst (half_header (slice p 5 d))),
   mkIs d (if snd (half_header (slice p 5 d)) then p + 5 else p) e 0).
Proof.
  intros H. unfold open_half, sbind, get_exc. cbn [s_exc].
  rewrite set_exc_good by reflexivity. cbn [s_data s_pos].
  rewrite tellg_good by reflexivity. cbn [s_data s_pos s_exc].
  rewrite half_read by exact H.
  destruct (half_header (slice p 5 d)) as [v []]; reflexivity.
Qed.

Lemma open_half_short d p e : len (slice p 5 d) <> 5 ->
  open_half (mkIs d p e 0) =
  (Throw IosFailure, if N.land 6 e =? 0 then mkIs d p e 0
                     else mkIs d (p + len (slice p 5 d)) e 6).
Proof.
  intros H. unfold open_half, sbind, get_exc. cbn [s_exc].
  rewrite set_exc_good by reflexivity. cbn [s_data s_pos].
  rewrite tellg_good by reflexivity. cbn [s_data s_pos s_exc].
  rewrite half_short by exact H. reflexivity.
Qed.

Lemma flags_eq d p e : len (slice p 5 d) = 5 ->
  parse_flags_and_size (mkIs d p e 0) =
  (Ok (flags_size (slice p 5 d)),
   mkIs d (if snd (flags_size (slice p 5 d)) =? 0 then p else p + 5) e 0).
Proof.
  intros H. unfold parse_flags_and_size, sbind, get_exc. cbn [s_exc].
  rewrite set_exc_good by reflexivity. cbn [s_data s_pos].
  rewrite tellg_good by reflexivity. cbn [s_data s_pos s_exc].
  rewrite half_read by exact H.
  destruct (flags_size (slice p 5 d)) as [f c]. cbn [snd]. destruct (c =? 0); reflexivity.
Qed.

Lemma flags_short d p e : len (slice p 5 d) <> 5 ->
  parse_flags_and_size (mkIs d p e 0) =
  (Throw IosFailure, if N.land 6 e =? 0 then mkIs d p e 0
                     else mkIs d (p + len (slice p 5 d)) e 6).
Proof.
  intros H. unfold parse_flags_and_size, sbind, get_exc. cbn [s_exc].
  rewrite set_exc_good by reflexivity. cbn [s_data s_pos].
  rewrite tellg_good by reflexivity. cbn [s_data s_pos s_exc].
  rewrite half_short by exact H. reflexivity.
Qed.

Lemma slice_at {A} p n (d l r : list A) : dropN p d = l ++ r -> len l = n -> slice p n d = l.
Proof. intros H L. unfold slice. rewrite H. now apply takeN_app_exact. Qed.

Lemma drop_at {A} p n (d l r : list A) : dropN p d = l ++ r -> len l = n -> dropN (p + n) d = r.
Proof.
  intros H L. rewrite <- dropN_dropN, H. now apply dropN_app_exact.
Qed.

Lemma uss4_positional b0 b1 b2 b3 : b0 < 128 -> b1 < 128 -> b2 < 128 -> b3 < 128 ->
  uint32_from_sync_safe4 b0 b1 b2 b3 = positional 128 [b0; b1; b2; b3].
Proof.
  intros H0 H1 H2 H3. rewrite (proj1 (proj2 (sync_safe_positional b0 b1 b2 b3 0))).
  now rewrite !N.mod_small.
Qed.

Section Opening.
Context {T : Type} (parse : N -> N -> ST T).

(** Where a header stands. *)
Lemma open_header d p v r f sz e : id3v2_header_at d p v r f sz ->
  open_with parse (mkIs d p e 0) =
  match parse f sz (mkIs d (if sz =? 0 then p + 5 else p + 10) e 0) with
  | (Ok t, s) => (Ok (Some (v, r), t), s)
  | (Throw x, s) => (Throw x, s)
  | (UB u, s) => (UB u, s)
  | (NonTerm, s) => (NonTerm, s)
  end.
Proof.
  intros (z0 & z1 & z2 & z3 & rest & D & V & R & Z & ->).
  assert (D1 : dropN p d = [73; 68; 51; v; r] ++ ([f; z0; z1; z2; z3] ++ rest)) by exact D.
  assert (S1 : slice p 5 d = [73; 68; 51; v; r]) by (eapply slice_at; [exact D1|reflexivity]).
  assert (D2 : dropN (p + 5) d = [f; z0; z1; z2; z3] ++ rest) by (eapply drop_at; [exact D1|reflexivity]).
  assert (S2 : slice (p + 5) 5 d = [f; z0; z1; z2; z3]) by (eapply slice_at; [exact D2|reflexivity]).
  unfold open_with, sbind. rewrite open_half_eq by now rewrite S1. rewrite S1.
  cbn [half_header]. change (73 =? 73) with true. change (68 =? 68) with true. change (51 =? 51) with true.
  cbn [andb]. apply N.eqb_neq in V, R. rewrite V, R. cbn [negb andb fst snd].
  rewrite flags_eq by now rewrite S2. rewrite S2. cbn [flags_size].
  inversion_clear Z as [|? ? Z0 Z']. inversion_clear Z' as [|? ? Z1 Z'']. inversion_clear Z'' as [|? ? Z2 Z'].
  inversion_clear Z' as [|? ? Z3 _].
  apply N.ltb_lt in Z0, Z1, Z2, Z3.
  rewrite Z0, Z1, Z2, Z3. cbn [andb fst snd].
  apply N.ltb_lt in Z0, Z1, Z2, Z3.
  rewrite uss4_positional by assumption.
  rewrite <- N.add_assoc. change (5 + 5) with 10.
  destruct (parse f _ _) as [[t|x|u|] s]; reflexivity.
Qed.

(** Where none does. *)
Lemma open_absent d p e b0 b1 b2 b3 b4 rest : dropN p d = [b0; b1; b2; b3; b4] ++ rest ->
  snd (half_header [b0; b1; b2; b3; b4]) = false ->
  open_with parse (mkIs d p e 0) =
  match parse b0 (snd (flags_size [b0; b1; b2; b3; b4]))
              (mkIs d (if snd (flags_size [b0; b1; b2; b3; b4]) =? 0 then p else p + 5) e 0) with
  | (Ok t, s) => (Ok (fst (half_header [b0; b1; b2; b3; b4]), t), s)
  | (Throw x, s) => (Throw x, s)
  | (UB u, s) => (UB u, s)
  | (NonTerm, s) => (NonTerm, s)
  end.
Proof.
  intros D H.
  assert (S1 : slice p 5 d = [b0; b1; b2; b3; b4]) by (eapply slice_at; [exact D|reflexivity]).
  unfold open_with, sbind. rewrite open_half_eq by now rewrite S1. rewrite S1, H.
  rewrite flags_eq by now rewrite S1. rewrite S1.
  cbn [flags_size snd].
  destruct (parse b0 _ _) as [[t|x|u|] s]; reflexivity.
Qed.

(** Fewer than five bytes. *)
Lemma open_short d p e : len (slice p 5 d) <> 5 ->
  open_with parse (mkIs d p e 0) =
  (Throw IosFailure, if N.land 6 e =? 0 then mkIs d p e 0
                     else mkIs d (p + len (slice p 5 d)) e 6).
Proof. intros H. unfold open_with, sbind. rewrite open_half_short by exact H. reflexivity. Qed.

(** Half a header. *)
Lemma open_half_there d p e v r : slice p 5 d = B "ID3" ++ [v; r] -> v <> 255 -> r <> 255 ->
  len (slice (p + 5) 5 d) <> 5 ->
  open_with parse (mkIs d p e 0) =
  (Throw IosFailure, if N.land 6 e =? 0 then mkIs d (p + 5) e 0
                     else mkIs d (p + 5 + len (slice (p + 5) 5 d)) e 6).
Proof.
  intros S1 V R L. change (B "ID3" ++ [v; r]) with [73; 68; 51; v; r] in S1.
  unfold open_with, sbind. rewrite open_half_eq by now rewrite S1. rewrite S1.
  cbn [half_header]. change (73 =? 73) with true. change (68 =? 68) with true. change (51 =? 51) with true.
  cbn [andb]. apply N.eqb_neq in V, R. rewrite V, R. cbn [negb andb fst snd].
  rewrite flags_short by exact L. reflexivity.
Qed.
End Opening.

(** A tag of no bytes. *)
Lemma parse_stream_none {T} (P : bytes -> outcome T) d p e t : P [] = Ok t ->
  parse_stream P 0 (mkIs d p e 0) = (Ok t, mkIs d p e 0).
Proof.
  intros H. unfold parse_stream, sbind, get_exc. cbn [s_exc].
  rewrite set_exc_good by reflexivity. cbn [s_data s_pos].
  rewrite tellg_good by reflexivity. cbn [s_data s_pos s_exc].
  unfold restoring.
  assert (Z : slice p 0 d = []) by (unfold slice; rewrite takeN_firstn; reflexivity).
  rewrite (sread_good 0) by (reflexivity || (cbn [s_data s_pos]; now rewrite Z)).
  cbn [s_data s_pos s_exc]. rewrite Z. unfold slift. rewrite H.
  rewrite set_exc_good by reflexivity. cbn [s_data s_pos]. now rewrite N.add_0_r.
Qed.

Lemma parse_stream_none_throw {T} (P : bytes -> outcome T) d p e x : P [] = Throw x ->
  parse_stream P 0 (mkIs d p e 0) = (Throw x, mkIs d p e 0).
Proof.
  intros H. unfold parse_stream, sbind, get_exc. cbn [s_exc].
  rewrite set_exc_good by reflexivity. cbn [s_data s_pos].
  rewrite tellg_good by reflexivity. cbn [s_data s_pos s_exc].
  unfold restoring.
  assert (Z : slice p 0 d = []) by (unfold slice; rewrite takeN_firstn; reflexivity).
  rewrite (sread_good 0) by (reflexivity || (cbn [s_data s_pos]; now rewrite Z)).
  cbn [s_data s_pos s_exc]. rewrite Z. unfold slift. rewrite H.
  unfold sbind. rewrite seekg_good by reflexivity. cbn [s_data s_pos s_exc].
  rewrite set_exc_good by reflexivity. reflexivity.
Qed.

Lemma parse_stream_none_ub {T} (P : bytes -> outcome T) d p e u : P [] = UB u ->
  fst (parse_stream P 0 (mkIs d p e 0)) = UB u.
Proof.
  intros H. unfold parse_stream, sbind, get_exc. cbn [s_exc].
  rewrite set_exc_good by reflexivity. cbn [s_data s_pos].
  rewrite tellg_good by reflexivity. cbn [s_data s_pos s_exc].
  unfold restoring.
  assert (Z : slice p 0 d = []) by (unfold slice; rewrite takeN_firstn; reflexivity).
  rewrite (sread_good 0) by (reflexivity || (cbn [s_data s_pos]; now rewrite Z)).
  cbn [s_data s_pos s_exc]. rewrite Z. unfold slift. rewrite H. reflexivity.
Qed.

Lemma body22_none f : parse_body22 f [] =
  Ok (mkTag22 (Some (negb (N.land f 128 =? 0))) (negb (N.land f 64 =? 0)) 0 []).
Proof. unfold parse_body22. destruct (N.land f 128 =? 0); reflexivity. Qed.

Lemma body23_none z passes f : N.land f 64 = 0 -> parse_body23 z (S passes) f [] =
  Ok (mkTag23 (Some (negb (N.land f 128 =? 0))) (negb (N.land f 32 =? 0)) None 0 []).
Proof. intros H. unfold parse_body23. rewrite H. destruct (N.land f 128 =? 0); reflexivity. Qed.

Lemma body23_none_ext z passes f : N.land f 64 <> 0 -> parse_body23 z passes f [] = UB OutOfBounds.
Proof.
  intros H. unfold parse_body23. apply N.eqb_neq in H. rewrite H. destruct (N.land f 128 =? 0); reflexivity.
Qed.

Lemma body24_none z passes f : N.land f 64 = 0 -> parse_body24 z (S passes) f [] =
  Ok (mkTag24 (Some (negb (N.land f 128 =? 0))) (negb (N.land f 32 =? 0)) (negb (N.land f 16 =? 0)) None 0 []).
Proof. intros H. unfold parse_body24. rewrite H. reflexivity. Qed.

Lemma body24_none_ext z passes f : N.land f 64 <> 0 -> parse_body24 z passes f [] = Throw BadExtHeader.
Proof. intros H. unfold parse_body24. apply N.eqb_neq in H. rewrite H. reflexivity. Qed.

From Verif Require Import S_Open.

Lemma ext_bit f : says_extended f <-> N.land f 64 <> 0.
Proof.
  unfold says_extended. split.
  - intros H E. assert (X : N.testbit (N.land f 64) 6 = false) by (rewrite E; reflexivity).
    rewrite N.land_spec, H in X. discriminate.
  - intros H. destruct (N.testbit f 6) eqn:E; [reflexivity|]. elim H. apply N.bits_inj. intros i.
    rewrite N.land_spec, N.bits_0.
    change 64 with (2 ^ 6). rewrite N.pow2_bits_eqb.
    destruct (6 =? i) eqn:I6; [apply N.eqb_eq in I6; subst i; now rewrite E|apply Bool.andb_false_r].
Qed.

Lemma ext_bit_not f : ~ says_extended f -> N.land f 64 = 0.
Proof. intros H. destruct (N.eq_dec (N.land f 64) 0) as [E|E]; [exact E|]. elim H. now apply ext_bit. Qed.

Lemma no_size f z0 z1 z2 z3 : Exists (fun z => 128 <= z) [z0; z1; z2; z3] \/ [z0; z1; z2; z3] = [0; 0; 0; 0] ->
  flags_size [f; z0; z1; z2; z3] = (f, 0).
Proof.
  intros H. cbn [flags_size]. f_equal.
  destruct ((z0 <? 128) && (z1 <? 128) && (z2 <? 128) && (z3 <? 128)) eqn:E; [|reflexivity].
  apply andb_prop in E as [E E3]. apply andb_prop in E as [E E2]. apply andb_prop in E as [E0 E1].
  apply N.ltb_lt in E0, E1, E2, E3. destruct H as [H|H].
  - exfalso. repeat (apply Exists_cons in H as [H|H]); [clear -H E0; lia|clear -H E1; lia|clear -H E2; lia|
      clear -H E3; lia|inversion H].
  - injection H as -> -> -> ->. reflexivity.
Qed.

Section Nothing.
Context {T : Type} (parse : N -> N -> ST T).

Lemma open_sizeless d p v r f e : sizeless_header_at d p v r f ->
  open_with parse (mkIs d p e 0) = of_version v r (parse f 0 (mkIs d (p + 5) e 0)).
Proof.
  intros (z0 & z1 & z2 & z3 & rest & D & V & R & Z).
  assert (D1 : dropN p d = [73; 68; 51; v; r] ++ ([f; z0; z1; z2; z3] ++ rest)) by exact D.
  assert (S1 : slice p 5 d = [73; 68; 51; v; r]) by (eapply slice_at; [exact D1|reflexivity]).
  assert (D2 : dropN (p + 5) d = [f; z0; z1; z2; z3] ++ rest) by (eapply drop_at; [exact D1|reflexivity]).
  assert (S2 : slice (p + 5) 5 d = [f; z0; z1; z2; z3]) by (eapply slice_at; [exact D2|reflexivity]).
  unfold open_with, sbind. rewrite open_half_eq by now rewrite S1. rewrite S1.
  cbn [half_header]. change (73 =? 73) with true. change (68 =? 68) with true. change (51 =? 51) with true.
  cbn [andb]. apply N.eqb_neq in V, R. rewrite V, R. cbn [negb andb fst snd].
  rewrite flags_eq by now rewrite S2. rewrite S2, no_size by exact Z. cbn [snd].
  change (0 =? 0) with true. cbn iota.
  destruct (parse f 0 _) as [[t|x|u|] s]; reflexivity.
Qed.

Lemma not_present b z0 z1 z2 z3 : ([b; z0; z1] <> B "ID3" \/ z2 = 255 \/ z3 = 255) ->
  snd (half_header [b; z0; z1; z2; z3]) = false.
Proof.
  intros H. cbn [half_header].
  destruct ((b =? 73) && (z0 =? 68) && (z1 =? 51)) eqn:E; [|reflexivity].
  apply andb_prop in E as [E E2]. apply andb_prop in E as [E0 E1].
  apply N.eqb_eq in E0, E1, E2. subst. cbn [snd].
  destruct H as [H|[-> | ->]]; [elim H; reflexivity|reflexivity|].
  change (255 =? 255) with true. apply Bool.andb_false_r.
Qed.

Lemma open_none d p b e : no_tag_at d p b ->
  exists v, open_with parse (mkIs d p e 0) =
  match parse b 0 (mkIs d p e 0) with
  | (Ok t, s) => (Ok (v, t), s)
  | (Throw x, s) => (Throw x, s)
  | (UB u, s) => (UB u, s)
  | (NonTerm, s) => (NonTerm, s)
  end.
Proof.
  intros (z0 & z1 & z2 & z3 & rest & D & P & Z).
  exists (fst (half_header [b; z0; z1; z2; z3])).
  rewrite (open_absent parse d p e b z0 z1 z2 z3 rest D (not_present _ _ _ _ _ P)).
  rewrite no_size by exact Z. reflexivity.
Qed.
End Nothing.

Lemma written_open {T} (R : id3v2_info -> ST T) (P : N -> bytes -> outcome T) d p e info t q :
  (forall i, R i = parse_stream (P (i_flags i)) (i_size i)) ->
  looking_at_id3v2 false (mkIs d p e 0) = (Ok (Some info), mkIs d (p + 10) e 0) ->
  R info (mkIs d (p + 10) e 0) = (Ok t, mkIs d q e 0) -> q <> p + 10 ->
  open_with (fun f n => parse_stream (P f) n) (mkIs d p e 0) =
  (Ok (Some (i_version info, i_revision info), t), mkIs d q e 0).
Proof.
  intros HR L Q NE. destruct info as [v r f sz]. rewrite HR in Q. cbn [i_flags i_size i_version i_revision] in *.
  rewrite looking_at_eq in L by reflexivity. cbn [s_data s_pos s_exc] in L.
  apply (f_equal fst) in L. cbn [fst] in L. apply Ok_inj in L. apply info_at_spec in L.
  rewrite (open_header _ _ _ _ _ _ _ _ L).
  destruct (sz =? 0) eqn:E; [|now rewrite Q].
  apply N.eqb_eq in E. subst sz. elim NE. clear L.
  destruct (P f []) as [t0|x|u|] eqn:EP.
  - rewrite (parse_stream_none _ _ _ _ t0 EP) in Q. injection Q as _ <-. reflexivity.
  - rewrite (parse_stream_none_throw _ _ _ _ x EP) in Q. discriminate.
  - apply (parse_stream_none_ub _ d (p + 10) e) in EP. rewrite Q in EP. discriminate.
  - exfalso. revert Q. unfold parse_stream, sbind, get_exc. cbn [s_exc].
    rewrite set_exc_good by reflexivity. cbn [s_data s_pos].
    rewrite tellg_good by reflexivity. cbn [s_data s_pos s_exc].
    unfold restoring.
    assert (Z : slice (p + 10) 0 d = []) by (unfold slice; rewrite takeN_firstn; reflexivity).
    rewrite (sread_good 0) by (reflexivity || (cbn [s_data s_pos]; now rewrite Z)).
    cbn [s_data s_pos s_exc]. rewrite Z. unfold slift. rewrite EP. discriminate.
Qed.
