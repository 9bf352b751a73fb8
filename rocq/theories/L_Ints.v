(** * Lemmas: size fields. *)
From Verif Require Import Base M_Ints.

Lemma lor_add x y n : x mod 2 ^ n = 0 -> y < 2 ^ n -> N.lor x y = x + y.
Proof.
  intros Hx Hy.
  assert (Hl : N.land x y = 0).
  { apply N.bits_inj. intros i. rewrite N.land_spec, N.bits_0.
    destruct (N.lt_ge_cases i n) as [Hi|Hi].
    - replace (N.testbit x i) with false; [reflexivity|].
      symmetry. rewrite <- (N.mod_pow2_bits_low x n i Hi), Hx. apply N.bits_0.
    - replace (N.testbit y i) with false; [apply andb_false_r|].
      symmetry. rewrite <- (N.mod_small y (2^n)) by assumption.
      now apply N.mod_pow2_bits_high. }
  rewrite <- N.lxor_lor by assumption. symmetry. now apply N.add_nocarry_lxor.
Qed.

Lemma land127 b : N.land b 127 = b mod 128.
Proof. change 127 with (N.ones 7). now rewrite N.land_ones. Qed.
Lemma land15 b : N.land b 15 = b mod 16.
Proof. change 15 with (N.ones 4). now rewrite N.land_ones. Qed.
Lemma land255 b : N.land b 255 = b mod 256.
Proof. change 255 with (N.ones 8). now rewrite N.land_ones. Qed.

Ltac pow2 :=
  change (2 ^ 7) with 128 in *; change (2 ^ 8) with 256 in *; change (2 ^ 14) with 16384 in *;
  change (2 ^ 16) with 65536 in *; change (2 ^ 21) with 2097152 in *;
  change (2 ^ 24) with 16777216 in *; change (2 ^ 28) with 268435456 in *.

Lemma uss3_spec b0 b1 b2 :
  unsigned_from_sync_safe3 b0 b1 b2 = (b0 mod 128) * 128 ^ 2 + (b1 mod 128) * 128 + b2 mod 128.
Proof.
  unfold unsigned_from_sync_safe3. rewrite !land127, !N.shiftl_mul_pow2.
  rewrite (lor_add (b0 mod 128 * 2 ^ 14) _ 14); pow2; [|lia|lia].
  rewrite (lor_add _ _ 7); pow2; lia.
Qed.

Lemma uss4_spec b0 b1 b2 b3 :
  uint32_from_sync_safe4 b0 b1 b2 b3 =
  (b0 mod 128) * 128 ^ 3 + (b1 mod 128) * 128 ^ 2 + (b2 mod 128) * 128 + b3 mod 128.
Proof.
  unfold uint32_from_sync_safe4. rewrite !land127, !N.shiftl_mul_pow2.
  rewrite (lor_add (b0 mod 128 * 2 ^ 21) _ 21); pow2; [|lia|lia].
  rewrite (lor_add _ (b2 mod 128 * 128) 14); pow2; [|lia|lia].
  rewrite (lor_add _ _ 7); pow2; lia.
Qed.

Lemma uss5_spec b0 b1 b2 b3 b4 :
  uint32_from_sync_safe5 b0 b1 b2 b3 b4 =
  (b0 mod 16) * 128 ^ 4 + (b1 mod 128) * 128 ^ 3 + (b2 mod 128) * 128 ^ 2
  + (b3 mod 128) * 128 + b4 mod 128.
Proof.
  unfold uint32_from_sync_safe5. rewrite !land127, land15, !N.shiftl_mul_pow2.
  rewrite (lor_add (b0 mod 16 * 2 ^ 28) _ 28); pow2; [|lia|lia].
  rewrite (lor_add _ (b2 mod 128 * 16384) 21); pow2; [|lia|lia].
  rewrite (lor_add _ (b3 mod 128 * 128) 14); pow2; [|lia|lia].
  rewrite (lor_add _ _ 7); pow2; lia.
Qed.

Lemma nss3_spec b0 b1 b2 : b1 < 256 -> b2 < 256 ->
  uint32_from_non_sync_safe3 b0 b1 b2 = b0 * 256 ^ 2 + b1 * 256 + b2.
Proof.
  intros H1 H2. unfold uint32_from_non_sync_safe3. rewrite !N.shiftl_mul_pow2.
  rewrite (lor_add (b0 * 2 ^ 16) _ 16); pow2; [|lia|lia].
  rewrite (lor_add _ _ 8); pow2; lia.
Qed.

Lemma nss4_spec b0 b1 b2 b3 : b1 < 256 -> b2 < 256 -> b3 < 256 ->
  uint32_from_non_sync_safe4 b0 b1 b2 b3 = b0 * 256 ^ 3 + b1 * 256 ^ 2 + b2 * 256 + b3.
Proof.
  intros H1 H2 H3. unfold uint32_from_non_sync_safe4. rewrite !N.shiftl_mul_pow2.
  rewrite (lor_add (b0 * 2 ^ 24) _ 24); pow2; [|lia|lia].
  rewrite (lor_add _ (b2 * 256) 16); pow2; [|lia|lia].
  rewrite (lor_add _ _ 8); pow2; lia.
Qed.

Lemma ssfu_ok x : x < 2 ^ 28 ->
  sync_safe_from_unsigned x =
  Ok [ x / 128 ^ 3 mod 128; x / 128 ^ 2 mod 128; x / 128 mod 128; x mod 128 ].
Proof.
  intros H. unfold sync_safe_from_unsigned. pow2.
  replace (268435455 <? x) with false by lia.
  rewrite !land127, !N.shiftr_div_pow2. reflexivity.
Qed.

Lemma ssfu_throw x : 2 ^ 28 <= x -> sync_safe_from_unsigned x = Throw InvalidArgument.
Proof.
  intros H. unfold sync_safe_from_unsigned. pow2.
  now replace (268435455 <? x) with true by lia.
Qed.

Lemma sync_safe_roundtrip_l x : x < 2 ^ 28 ->
  exists b0 b1 b2 b3, sync_safe_from_unsigned x = Ok [b0; b1; b2; b3] /\
    Forall (fun b => b < 128) [b0; b1; b2; b3] /\
    uint32_from_sync_safe4 b0 b1 b2 b3 = x.
Proof.
  intros H. do 4 eexists. split; [apply ssfu_ok, H|]. split.
  - repeat constructor; apply N.mod_lt; lia.
  - rewrite uss4_spec. change (128^3) with 2097152. change (128^2) with 16384. pow2. lia.
Qed.

Lemma sync_safe_roundtrip_r b0 b1 b2 b3 : Forall (fun b => b < 128) [b0; b1; b2; b3] ->
  sync_safe_from_unsigned (uint32_from_sync_safe4 b0 b1 b2 b3) = Ok [b0; b1; b2; b3].
Proof.
  intros H. repeat (apply Forall_cons_iff in H as [? H]).
  rewrite uss4_spec. change (128^3) with 2097152. change (128^2) with 16384.
  rewrite ssfu_ok by (pow2; lia).
  change (128^3) with 2097152. change (128^2) with 16384.
  repeat f_equal; lia.
Qed.

Lemma uss4_lt b0 b1 b2 b3 : uint32_from_sync_safe4 b0 b1 b2 b3 < 2 ^ 28.
Proof.
  rewrite uss4_spec. change (128^3) with 2097152. change (128^2) with 16384. pow2. lia.
Qed.

Lemma be24_spec x : be24 x = [x / 65536 mod 256; x / 256 mod 256; x mod 256].
Proof. unfold be24. rewrite !land255, !N.shiftr_div_pow2. reflexivity. Qed.
Lemma be32_spec x :
  be32 x = [x / 16777216 mod 256; x / 65536 mod 256; x / 256 mod 256; x mod 256].
Proof. unfold be32. rewrite !land255, !N.shiftr_div_pow2. reflexivity. Qed.

Lemma be24_decode x b0 b1 b2 : be24 x = [b0; b1; b2] -> x < 2 ^ 24 ->
  uint32_from_non_sync_safe3 b0 b1 b2 = x.
Proof.
  rewrite be24_spec. intros [= <- <- <-] H. rewrite nss3_spec by (apply N.mod_lt; lia).
  change (256^2) with 65536. pow2. lia.
Qed.
Lemma be32_decode x b0 b1 b2 b3 : be32 x = [b0; b1; b2; b3] -> x < 2 ^ 32 ->
  uint32_from_non_sync_safe4 b0 b1 b2 b3 = x.
Proof.
  rewrite be32_spec. intros [= <- <- <- <-] H. rewrite nss4_spec by (apply N.mod_lt; lia).
  change (256^3) with 16777216. change (256^2) with 65536. change (2^32) with 4294967296 in H. lia.
Qed.
Lemma be24_bytes x : is_bytes (be24 x).
Proof. rewrite be24_spec. repeat constructor; apply N.mod_lt; lia. Qed.
Lemma be32_bytes x : is_bytes (be32 x).
Proof. rewrite be32_spec. repeat constructor; apply N.mod_lt; lia. Qed.
Lemma be24_len x : len (be24 x) = 3. Proof. reflexivity. Qed.
Lemma be32_len x : len (be32 x) = 4. Proof. reflexivity. Qed.

From Verif Require Import S_Ints.

Lemma sync_safe_positional b0 b1 b2 b3 b4 :
  unsigned_from_sync_safe3 b0 b1 b2 = positional 128 [b0 mod 128; b1 mod 128; b2 mod 128] /\
  uint32_from_sync_safe4 b0 b1 b2 b3 =
    positional 128 [b0 mod 128; b1 mod 128; b2 mod 128; b3 mod 128] /\
  uint32_from_sync_safe5 b0 b1 b2 b3 b4 =
    positional 128 [b0 mod 16; b1 mod 128; b2 mod 128; b3 mod 128; b4 mod 128].
Proof.
  rewrite uss3_spec, uss4_spec, uss5_spec. unfold positional. cbn [fold_left].
  change (128^4) with 268435456. change (128^3) with 2097152. change (128^2) with 16384.
  repeat split; lia.
Qed.

Lemma plain_positional b0 b1 b2 b3 : is_bytes [b0; b1; b2; b3] ->
  uint32_from_non_sync_safe3 b0 b1 b2 = positional 256 [b0; b1; b2] /\
  uint32_from_non_sync_safe4 b0 b1 b2 b3 = positional 256 [b0; b1; b2; b3].
Proof.
  intros H. repeat (apply Forall_cons_iff in H as [? H]). unfold is_byte in *.
  rewrite nss3_spec, nss4_spec by assumption. unfold positional. cbn [fold_left].
  change (256^3) with 16777216. change (256^2) with 65536.
  split; lia.
Qed.

Lemma plain_roundtrip x :
  (x < 2 ^ 24 -> exists b0 b1 b2, be24 x = [b0; b1; b2] /\ is_bytes [b0; b1; b2] /\
     uint32_from_non_sync_safe3 b0 b1 b2 = x) /\
  (x < 2 ^ 32 -> exists b0 b1 b2 b3, be32 x = [b0; b1; b2; b3] /\ is_bytes [b0; b1; b2; b3] /\
     uint32_from_non_sync_safe4 b0 b1 b2 b3 = x).
Proof.
  split; intros H.
  - do 3 eexists. split; [reflexivity|]. split; [apply be24_bytes|]. now apply be24_decode.
  - do 4 eexists. split; [reflexivity|]. split; [apply be32_bytes|]. now apply be32_decode.
Qed.
