(** * Lemmas for C101: checksums. *)
From Verif Require Import Base M_Ints M_Unsync M_Stream M_Payload M_Cloud M_Frame M_Tag23 M_Tag24
  S_Ints S_Stream S_Unsync S_Payload S_Cloud S_Tag S_Tag23 S_Tag24 S_Crc L_Ints L_Unsync L_Tag23 L_Tag23b L_Tag23c L_Tag23d L_Tag23e L_Stream.

Lemma small_bits a n : a < 2 ^ n <-> forall i, n <= i -> N.testbit a i = false.
Proof.
  split.
  - intros H i Hi. rewrite <- (N.mod_small a (2 ^ n) H). apply N.mod_pow2_bits_high. exact Hi.
  - intros H. assert (E : a mod 2 ^ n = a).
    { apply N.bits_inj. intros i. destruct (N.lt_ge_cases i n) as [L|L].
      - now apply N.mod_pow2_bits_low.
      - rewrite N.mod_pow2_bits_high by exact L. now rewrite H. }
    rewrite <- E. apply N.mod_lt. apply N.pow_nonzero. discriminate.
Qed.
Lemma lxor_small a b n : a < 2 ^ n -> b < 2 ^ n -> N.lxor a b < 2 ^ n.
Proof.
  rewrite !small_bits. intros Ha Hb i Hi. rewrite N.lxor_spec, Ha, Hb by exact Hi. reflexivity.
Qed.
Lemma crc_bit_small c : c < 2 ^ 32 -> crc_bit c < 2 ^ 32.
Proof.
  intros H. unfold crc_bit.
  assert (D : c / 2 < 2 ^ 32) by (apply N.div_lt_upper_bound; [discriminate|]; clear - H; lia).
  destruct (N.odd c); [|exact D]. apply lxor_small; [exact D|reflexivity].
Qed.
Lemma crc_byte_small c x : c < 2 ^ 32 -> crc_byte c x < 2 ^ 32.
Proof.
  intros H. unfold crc_byte.
  assert (D : N.lxor c (x mod 256) < 2 ^ 32).
  { apply lxor_small; [exact H|]. pose proof (N.mod_lt x 256 ltac:(discriminate)) as L. clear - L.
    eapply N.lt_trans; [exact L|reflexivity]. }
  cbn [Nat.iter]. unfold Nat.iter. cbn. do 8 apply crc_bit_small. exact D.
Qed.
Lemma fold_small l : forall c, c < 2 ^ 32 -> fold_left crc_byte l c < 2 ^ 32.
Proof. induction l as [|x r IH]; intros c H; [exact H|]. cbn [fold_left]. apply IH. now apply crc_byte_small. Qed.
Lemma crc32_small c l : crc32 c l < 2 ^ 32.
Proof.
  unfold crc32. apply lxor_small; [|reflexivity]. apply fold_small. apply lxor_small; [|reflexivity].
  apply N.mod_lt. discriminate.
Qed.
Lemma crc32_app c a b : crc32 (crc32 c a) b = crc32 c (a ++ b).
Proof.
  unfold crc32 at 1. rewrite (N.mod_small _ _ (crc32_small c a)). unfold crc32.
  rewrite N.lxor_assoc, N.lxor_nilpotent, N.lxor_0_r. now rewrite fold_left_app.
Qed.
Lemma crc32_nil : crc32 0 [] = 0. Proof. reflexivity. Qed.
Lemma crc_fold z fs : uses_crc32 z ->
  fold_left (fun n c => z_crc z n (c_plain c)) fs (z_crc z 0 []) = crc32 0 (concat (map c_plain fs)).
Proof.
  intros U. rewrite U. change (crc32 0 []) with (crc32 0 (concat (map c_plain []))).
  assert (G : forall gs hs, fold_left (fun n c => z_crc z n (c_plain c)) hs (crc32 0 (concat (map c_plain gs))) =
              crc32 0 (concat (map c_plain (gs ++ hs)))).
  { intros gs hs. revert gs. induction hs as [|c r IH]; intros gs; [now rewrite app_nil_r|]. cbn [fold_left].
    rewrite U, crc32_app.
    assert (E : concat (map c_plain gs) ++ c_plain c = concat (map c_plain (gs ++ [c]))).
    { rewrite map_app, concat_app. cbn [map concat]. now rewrite app_nil_r. }
    rewrite E, IH, <- app_assoc. reflexivity. }
  apply (G []).
Qed.

(** What [size] leaves the checksum to be. *)
Lemma prepared_sum z t x : prep_ext z t = Ok t -> t3_ext t = Some x -> x_crc x <> None ->
  x_crc x = Some (fold_left (fun n c => z_crc z n (c_plain c)) (t3_frames t) (z_crc z 0 [])).
Proof.
  intros H Hx Hc. unfold prep_ext in H. rewrite Hx in H. destruct (x_crc x) as [c|] eqn:E; [|congruence].
  cbn [is_some] in H. apply bind_ok in H as (fs & Hf & H). apply Ok_inj in H.
  pose proof (f_equal t3_ext H) as H1. pose proof (f_equal t3_frames H) as H2. cbn [t3_ext t3_frames] in H1, H2.
  rewrite Hx in H1. injection H1 as H1. subst fs.
  pose proof (ext_crc_spec z x (t3_frames t)) as (_ & C2 & _).
  pose proof (ext_refresh_spec (ext_crc z x (t3_frames t))) as (_ & R2 & _). cbv zeta in C2, R2.
  rewrite H1 in R2. rewrite <- R2 in C2. rewrite E in C2. exact C2.
Qed.

(** What is written of a tag with a checksum. *)
Lemma written_sum z t x u b t' : uses_crc32 z -> t3_ext t = Some x -> x_crc x <> None -> ext_coherent x ->
  write23 z t u = Ok (b, t') ->
  let sum := crc32 0 (concat (map c_plain (t3_frames t'))) in
  let e := summed_header (x_pad x) sum in
  (exists n h, size23 z t u = Ok (n, t') /\ tag_header 3 0 (N.lor (flags23 t) (bit_if u 128)) n = Ok h /\
    b = h ++ (if u then e else unsynchronise e false) ++ concat (map (cached u) (t3_frames t')) ++ repeatN 0 (t3_pad t)) /\
  exists x', t3_ext t' = Some x' /\ x_crc x' = Some sum /\ ext_wire23 x' = e.
Proof.
  intros U Hx Hc Hco Hw sum e. destruct (write23_inv z t u b t' Hw) as (n & h & Hs & Hh & Hb).
  pose proof (size23_inv z t u n t' Hs) as (_ & _ & S3 & _ & S5 & _ & S7).
  rewrite Hx in S5. cbn [ext_rel] in S5. destruct (t3_ext t') as [x'|] eqn:Ex'; [|destruct S5].
  destruct S5 as (P1 & P2 & P3 & P4). specialize (P4 Hco P3) as [Q1 Q2].
  assert (Hc' : x_crc x' <> None).
  { destruct (x_crc x'); [discriminate|]. destruct (x_crc x); [discriminate P2|congruence]. }
  pose proof (prepared_sum z t' x' S7 Ex' Hc') as C. rewrite (crc_fold z _ U) in C. fold sum in C.
  assert (W : ext_wire23 x' = e).
  { unfold ext_wire23, ext_size23. rewrite C. cbn [is_some]. rewrite P1. reflexivity. }
  split; [|exists x'; auto]. exists n, h. split; [exact Hs|]. split; [exact Hh|].
  rewrite Hb. f_equal. f_equal; [|now rewrite S3].
  unfold ext_written23. destruct u; [now rewrite Q1|now rewrite Q2, W].
Qed.

Lemma wires_of z t n t' : size23 z t false = Ok (n, t') -> Forall (coherent (wire23 z)) (t3_frames t) ->
  Forall2 (fun c w => wire23 z (c_frame c) = Ok w) (t3_frames t) (map c_plain (t3_frames t')).
Proof.
  intros Hs Hf. pose proof (size23_inv z t false n t' Hs) as (_ & _ & _ & (R1 & R2 & R3) & _). specialize (R3 Hf).
  revert R1 R2 R3. generalize (t3_frames t) (t3_frames t'). clear. intros l l'. revert l.
  induction l' as [|c' r' IH]; intros [|c r] R1 R2 R3; cbn [map] in R1; try discriminate R1; [constructor|].
  injection R1 as E1 E2. apply Forall_cons_iff in R2 as [C1 C2]. apply Forall_cons_iff in R3 as [D1 D2].
  cbn [map]. constructor; [|now apply IH]. rewrite <- E1. apply (D1 C1).
Qed.

(** ** Reading *)
Lemma parse_stream_inv {T} (P : bytes -> outcome T) pre buf post e t s :
  parse_stream P (len buf) (mkIs (pre ++ buf ++ post) (len pre) e 0) = (Ok t, s) -> P buf = Ok t.
Proof.
  destruct (P buf) as [t0|x|w|] eqn:E.
  - rewrite (parse_stream_ok P pre buf post e t0 E). intros H. injection H as <- _. reflexivity.
  - rewrite (parse_stream_throw P pre buf post e x E). discriminate.
  - set (d := pre ++ buf ++ post).
    assert (Hs : slice (len pre) (len buf) d = buf).
    { unfold slice, d. rewrite dropN_app_exact by reflexivity. now apply takeN_app_exact. }
    unfold parse_stream, sbind, get_exc. cbn [s_exc].
    rewrite set_exc_good by reflexivity. cbn [s_data s_pos].
    rewrite tellg_good by reflexivity. cbn [s_data s_pos s_exc]. unfold restoring.
    rewrite (sread_good (len buf)) by (try reflexivity; cbn [s_data s_pos]; now rewrite Hs).
    cbn [s_data s_pos s_exc]. rewrite Hs. unfold slift. rewrite E. discriminate.
  - set (d := pre ++ buf ++ post).
    assert (Hs : slice (len pre) (len buf) d = buf).
    { unfold slice, d. rewrite dropN_app_exact by reflexivity. now apply takeN_app_exact. }
    unfold parse_stream, sbind, get_exc. cbn [s_exc].
    rewrite set_exc_good by reflexivity. cbn [s_data s_pos].
    rewrite tellg_good by reflexivity. cbn [s_data s_pos s_exc]. unfold restoring.
    rewrite (sread_good (len buf)) by (try reflexivity; cbn [s_data s_pos]; now rewrite Hs).
    cbn [s_data s_pos s_exc]. rewrite Hs. unfold slift. rewrite E. discriminate.
Qed.

Lemma summed_len p c : len (summed_header p c) = 14.
Proof. unfold summed_header. rewrite !len_app, !be32_len. reflexivity. Qed.
Lemma unchecked_body23 z passes f p c c' l t : p < 2 ^ 32 -> c < 2 ^ 32 -> c' < 2 ^ 32 ->
  N.testbit f 7 = false -> N.testbit f 6 = true ->
  parse_body23 z passes f (summed_header p c ++ l) = Ok t -> parse_body23 z passes f (summed_header p c' ++ l) = Ok (with_sum23 t c').
Proof.
  intros Hp Hc Hc' H7 H6 H. unfold parse_body23 in *. change 128 with (2 ^ 7) in *. change 64 with (2 ^ 6) in *.
  rewrite (testbit_land f 7), (testbit_land f 6) in *. rewrite H7, H6 in *. cbv iota zeta in *. rewrite app_nil_r in *.
  assert (E : forall k, k < 2 ^ 32 -> parse_ext23 (summed_header p k ++ l) = Ok (mkExt p (Some k) true [] [] 0)).
  { intros k Hk. apply (parse_ext_wire (mkExt p (Some k) true [] [] 0) l); [exact Hp|]. intros k' Hk'. cbn [x_crc] in Hk'. now injection Hk' as <-. }
  assert (D : forall k, dropN 14 (summed_header p k ++ l) = l).
  { intros k. apply dropN_app_exact. apply summed_len. }
  rewrite (E c Hc) in H. rewrite (E c' Hc'). cbn [bind] in *.
  change (ext_size23 (mkExt p (Some c) true [] [] 0) + 4) with 14 in H. change (ext_size23 (mkExt p (Some c') true [] [] 0) + 4) with 14.
  rewrite D in *. apply bind_ok in H as ([pad ms] & H1 & H). rewrite H1. cbn [bind].
  apply bind_ok in H as (fs & H2 & H). assert (L : len (summed_header p c' ++ l) = len (summed_header p c ++ l)) by (rewrite !len_app, !summed_len; reflexivity).
  rewrite L, H2. cbn [bind]. apply Ok_inj in H. subst t. reflexivity.
Qed.

Lemma unchecked_body24 z passes f c0 c1 c2 c3 c4 d0 d1 d2 d3 d4 l t : c0 <= 15 -> Forall (fun x => x < 128) [c1; c2; c3; c4] ->
  d0 <= 15 -> Forall (fun x => x < 128) [d1; d2; d3; d4] -> N.testbit f 6 = true ->
  parse_body24 z passes f (summed24 c0 c1 c2 c3 c4 ++ l) = Ok t ->
  parse_body24 z passes f (summed24 d0 d1 d2 d3 d4 ++ l) = Ok (with_sum24 t (uint32_from_sync_safe5 d0 d1 d2 d3 d4)).
Proof.
  intros Hc0 Hc Hd0 Hd H6 H. unfold parse_body24 in *. change 64 with (2 ^ 6) in *.
  rewrite (testbit_land f 6) in *. rewrite H6 in *.
  assert (E : forall k0 k1 k2 k3 k4, k0 <= 15 -> Forall (fun x => x < 128) [k1; k2; k3; k4] ->
    parse_ext24 (summed24 k0 k1 k2 k3 k4 ++ l) = Ok (mkExt24 12 false (Some (uint32_from_sync_safe5 k0 k1 k2 k3 k4)) None)).
  { clear. intros k0 k1 k2 k3 k4 K0 K. apply Forall_cons_iff in K as [K1 K]. apply Forall_cons_iff in K as [K2 K].
    apply Forall_cons_iff in K as [K3 K]. apply Forall_cons_iff in K as [K4 _].
    cbn [summed24 List.app]. unfold parse_ext24. change (1 =? 0) with false. cbv iota zeta.
    change (dropN (5 + 1) (0 :: 0 :: 0 :: 12 :: 1 :: 32 :: 5 :: k0 :: k1 :: k2 :: k3 :: k4 :: l)) with (5 :: k0 :: k1 :: k2 :: k3 :: k4 :: l).
    change (negb (N.land 32 64 =? 0)) with false. change (negb (N.land 32 32 =? 0)) with true. change (negb (N.land 32 16 =? 0)) with false.
    cbv iota. cbn [bind]. unfold flag_data.
    assert (L : (len (5 :: k0 :: k1 :: k2 :: k3 :: k4 :: l) <? 5 + 1) || negb (5 =? 5) = false).
    { rewrite !len_cons. clear. apply Bool.orb_false_intro; [|reflexivity]. apply N.ltb_ge. lia. }
    rewrite L. change (k0 :: k1 :: k2 :: k3 :: k4 :: l) with ([k0; k1; k2; k3; k4] ++ l). rewrite (takeN_app_exact 5 [k0; k1; k2; k3; k4] l eq_refl). cbn [bind].
    assert (G : (15 <? k0) || (127 <? k1) || (127 <? k2) || (127 <? k3) || (127 <? k4) = false).
    { clear - K0 K1 K2 K3 K4. repeat (apply Bool.orb_false_intro); apply N.ltb_ge; lia. }
    rewrite G. cbn [bind]. reflexivity. }
  assert (D : forall k0 k1 k2 k3 k4, dropN 12 (summed24 k0 k1 k2 k3 k4 ++ l) = l) by (intros; now apply dropN_app_exact).
  rewrite (E c0 c1 c2 c3 c4 Hc0 Hc) in H. rewrite (E d0 d1 d2 d3 d4 Hd0 Hd). cbn [bind y_size] in *. rewrite D in *.
  apply bind_ok in H as ([pad ms] & H1 & H). rewrite H1. cbn [bind].
  apply bind_ok in H as (fs & H2 & H). assert (L : len (summed24 d0 d1 d2 d3 d4 ++ l) = len (summed24 c0 c1 c2 c3 c4 ++ l)) by (rewrite !len_app; reflexivity).
  rewrite L, H2. cbn [bind]. apply Ok_inj in H. subst t. reflexivity.
Qed.

(** ** Headers that unsynchronisation changes *)
Lemma unsync_longer l : is_bytes l -> len l <= len (unsynchronise l false).
Proof.
  induction l as [|c r IH]; intros Hb; [reflexivity|]. apply Forall_cons_iff in Hb as [_ Hr]. specialize (IH Hr).
  cbn [unsynchronise]. destruct (c =? 255); [|rewrite !len_cons; clear - IH; lia].
  destruct r as [|q r]; [reflexivity|]. destruct (_ || _); rewrite !len_cons in *; clear - IH; lia.
Qed.
Lemma only_ff (c : N) (X : bool) : match c with 255 => X | _ => false end = true -> c = 255.
Proof.
  intros H. destruct c as [|p]; [discriminate H|].
  do 8 (destruct p as [p|p|]; try discriminate H). reflexivity.
Qed.
Lemma unsync_grows l i : is_bytes l -> needs_protection l false i = true -> len l < len (unsynchronise l false).
Proof.
  revert i. induction l as [|c r IH]; intros i Hb H; [destruct i; discriminate H|].
  apply Forall_cons_iff in Hb as [_ Hr]. pose proof (unsync_longer r Hr) as G.
  cbn [unsynchronise]. destruct i as [|i].
  - unfold needs_protection in H. cbn [nth_error] in H. destruct (N.eqb_spec c 255) as [->|Hc].
    + destruct r as [|q r]; [discriminate H|]. apply Forall_cons_iff in Hr as [Hq _].
      rewrite land224_ge by exact Hq. cbn [nth_error] in H. rewrite H. rewrite !len_cons in *. clear - G. lia.
    + exfalso. apply Hc. exact (only_ff c _ H).
  - specialize (IH i Hr H). destruct (c =? 255); [|rewrite !len_cons; clear - IH; lia].
    destruct r as [|q r]; [destruct i; discriminate H|]. destruct (_ || _); rewrite !len_cons in *; clear - IH; lia.
Qed.
Lemma summed_bytes p c : is_bytes (summed_header p c).
Proof. exact (ext_wire_bytes (mkExt p (Some c) true [] [] 0)). Qed.
Lemma inj4 (p0 p1 p2 p3 q0 q1 q2 q3 : N) (a b : bytes) : 0 :: 0 :: 0 :: 10 :: 128 :: 0 :: p0 :: p1 :: p2 :: p3 :: a = 0 :: 0 :: 0 :: 10 :: 128 :: 0 :: q0 :: q1 :: q2 :: q3 :: b ->
  p0 = q0 /\ p1 = q1 /\ p2 = q2 /\ p3 = q3.
Proof. intros H. injection H. auto. Qed.
Lemma summed_inj p q c d a b : p < 2 ^ 32 -> q < 2 ^ 32 -> summed_header p c ++ a = summed_header q d ++ b -> p = q.
Proof.
  intros Hp Hq H. unfold summed_header in H. rewrite <- !app_assoc in H. cbn [List.app] in H.
  destruct (be32_app_decode p (be32 c ++ a) Hp) as (p0 & p1 & p2 & p3 & E1 & D1).
  destruct (be32_app_decode q (be32 d ++ b) Hq) as (q0 & q1 & q2 & q3 & E2 & D2).
  rewrite E1, E2 in H. apply inj4 in H as (-> & -> & -> & ->). exact (eq_trans (eq_sym D1) D2).
Qed.

(** ** ID3v2.4 *)
Lemma sum_bytes24 x c xb : y_crc x = Some c -> ext_wire24 x = Ok xb ->
  exists before after, xb = before ++ [c / 128 ^ 3; c / 128 ^ 2 mod 128; c / 128 mod 128; c mod 128] ++ after.
Proof.
  intros Hc H. unfold ext_wire24 in H. apply bind_ok in H as (sz & _ & H). rewrite Hc in H.
  destruct (N.lt_ge_cases c (2 ^ 28)) as [L|L]; [|rewrite (ssfu_throw c L) in H; discriminate H].
  rewrite (ssfu_ok c L) in H. cbn [bind] in H. apply Ok_inj in H.
  assert (E : c / 128 ^ 3 mod 128 = c / 128 ^ 3).
  { apply N.mod_small. apply N.div_lt_upper_bound; [discriminate|]. exact L. }
  rewrite E in H. subst xb. cbn [is_some].
  eexists (sz ++ [1; _] ++ (if y_update x then [0] else [])), (1 :: opt_bytes (y_restr x)).
  rewrite <- !app_assoc. cbn [List.app]. reflexivity.
Qed.
