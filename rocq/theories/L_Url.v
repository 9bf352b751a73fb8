(** * Lemmas: URL encoding. *)
From Verif Require Import Base M_Url S_Url.

Lemma urldecode_lit c r : c <> 37 -> urldecode (c :: r) = let* o := urldecode r in Ok (c :: o).
Proof. intros H. cbn [urldecode]. now rewrite (proj2 (N.eqb_neq c 37) H). Qed.

Lemma urldecode_hex a b r : a <> 37 ->
  urldecode (37 :: a :: b :: r) = let* x := strtochar a b in let* o := urldecode r in Ok (x :: o).
Proof. intros H. cbn [urldecode]. change (37 =? 37) with true. cbv iota. now rewrite (proj2 (N.eqb_neq a 37) H). Qed.

Lemma hex_of_cases h v : hex_of h v ->
  v < 16 /\ ((48 <= h <= 57 /\ v = h - 48) \/ (97 <= h <= 102 /\ v = h - 97 + 10) \/
             (65 <= h <= 70 /\ v = h - 65 + 10)).
Proof.
  unfold hex_of. intros H.
  assert (Hv : v < 16).
  { destruct H as [H|H]; (assert (N.to_nat v < 16)%nat by
      (match type of H with nth_error ?l _ = _ => change 16%nat with (List.length l) end;
       apply nth_error_Some; congruence)); lia. }
  split; [assumption|].
  assert (exists n, v = N.of_nat n /\ (n < 16)%nat) as (n & -> & Hn) by (exists (N.to_nat v); lia).
  rewrite Nat2N.id in H.
  do 16 (destruct n as [|n]; [cbn in H; destruct H as [[= <-]|[= <-]]; lia|]). lia.
Qed.

Lemma hex_val_of h v : hex_of h v -> hex_val h = Ok v /\ h <> 37 /\ h < 256.
Proof.
  intros H. apply hex_of_cases in H as [Hv H]. unfold hex_val.
  destruct H as [[H ->]|[[H ->]|[H ->]]].
  - replace ((48 <=? h) && (h <=? 57)) with true by lia. split; [reflexivity|lia].
  - replace ((48 <=? h) && (h <=? 57)) with false by lia.
    replace ((97 <=? h) && (h <=? 102)) with true by lia. split; [reflexivity|lia].
  - replace ((48 <=? h) && (h <=? 57)) with false by lia.
    replace ((97 <=? h) && (h <=? 102)) with false by lia.
    replace ((65 <=? h) && (h <=? 70)) with true by lia. split; [reflexivity|lia].
Qed.

Lemma decode_denotes lit e s : denotes lit e s -> urldecode e = Ok s.
Proof.
  induction 1 as [|c e s Hl Hc _ IH|h1 h2 v1 v2 e s H1 H2 _ IH].
  - reflexivity.
  - rewrite urldecode_lit by assumption. now rewrite IH.
  - apply hex_val_of in H1 as (H1 & Hn & _). apply hex_val_of in H2 as (H2 & _).
    rewrite urldecode_hex by assumption. unfold strtochar. rewrite H1, H2. cbn [bind].
    now rewrite IH.
Qed.

Lemma hex_digit_of d : d < 16 -> hex_of (hex_digit d) d.
Proof.
  intros H. left. assert (exists n, d = N.of_nat n /\ (n < 16)%nat) as (n & -> & Hn)
    by (exists (N.to_nat d); lia).
  rewrite Nat2N.id. do 16 (destruct n as [|n]; [reflexivity|]). lia.
Qed.

Lemma url_keep_unreserved c : url_keep c = true -> unreserved c /\ c <> 37.
Proof.
  unfold url_keep, unreserved. intros H.
  assert (H' : (65 <= c <= 90) \/ (97 <= c <= 122) \/ (48 <= c <= 57) \/
               c = 45 \/ c = 95 \/ c = 46 \/ c = 126) by lia.
  split; [|lia]. cbn. intuition congruence.
Qed.

Lemma encode_denotes s : is_bytes s -> denotes unreserved (urlencode s) s.
Proof.
  induction s as [|c s IH]; intros Hb; [constructor|].
  inversion Hb as [|? ? Hc Hs]; subst. unfold is_byte in Hc.
  change (urlencode (c :: s)) with (urlencode1 c ++ urlencode s).
  specialize (IH Hs). unfold urlencode1.
  destruct (N.eqb_spec c 37) as [->|Hn].
  - change 37 with (16 * 2 + 5). cbn [app B]. apply den_hex; [left; reflexivity|left; reflexivity|assumption].
  - destruct (url_keep c) eqn:E.
    + apply url_keep_unreserved in E as [E _]. now apply den_lit.
    + rewrite (N.div_mod c 16) at 3 by lia.
      apply (den_hex unreserved (hex_digit (c / 16)) (hex_digit (c mod 16)) (c / 16) (c mod 16));
        [apply hex_digit_of|apply hex_digit_of|assumption].
      * apply N.div_lt_upper_bound; lia.
      * apply N.mod_lt. lia.
Qed.

Lemma urlencode_roundtrip s : is_bytes s -> urldecode (urlencode s) = Ok s.
Proof. intros H. eapply decode_denotes, encode_denotes, H. Qed.

Lemma hex_val_inv h v : hex_val h = Ok v -> hex_of h v.
Proof.
  unfold hex_val.
  destruct ((48 <=? h) && (h <=? 57)) eqn:E1; [|destruct ((97 <=? h) && (h <=? 102)) eqn:E2;
    [|destruct ((65 <=? h) && (h <=? 70)) eqn:E3; [|discriminate]]]; intros [= <-].
  - assert (h = 48 + N.of_nat (N.to_nat (h - 48))) by lia.
    pose proof (hex_digit_of (h - 48) ltac:(lia)) as X. unfold hex_digit in X.
    replace (h - 48 <? 10) with true in X by lia. now replace (48 + (h - 48)) with h in X by lia.
  - pose proof (hex_digit_of (h - 97 + 10) ltac:(lia)) as X. unfold hex_digit in X.
    replace (h - 97 + 10 <? 10) with false in X by lia.
    now replace (87 + (h - 97 + 10)) with h in X by lia.
  - right. assert (exists n, h = 65 + N.of_nat n /\ (n < 6)%nat) as (n & -> & Hn)
      by (exists (N.to_nat (h - 65)); lia).
    do 6 (destruct n as [|n]; [reflexivity|]). lia.
Qed.

Lemma hex_val_total h : (exists v, hex_val h = Ok v) \/ hex_val h = Throw InvalidArgument.
Proof. unfold hex_val. repeat destruct (_ && _); eauto. Qed.

Lemma strtochar_total a b : (exists v, strtochar a b = Ok v) \/ strtochar a b = Throw InvalidArgument.
Proof.
  unfold strtochar. destruct (hex_val_total a) as [[x ->]| ->]; [|auto]. cbn [bind].
  destruct (hex_val_total b) as [[y ->]| ->]; cbn [bind]; eauto.
Qed.

(** Decoding never fails in another way than with [invalid_argument]. *)
Lemma urldecode_total s : (exists o, urldecode s = Ok o) \/ urldecode s = Throw InvalidArgument.
Proof.
  assert (G : forall n s, (List.length s <= n)%nat ->
    (exists o, urldecode s = Ok o) \/ urldecode s = Throw InvalidArgument).
  { induction n as [|n IH]; intros l Hl.
    - destruct l; [left; now exists []|cbn in Hl; lia].
    - destruct l as [|c r]; [left; now exists []|]. cbn [List.length] in Hl. cbn [urldecode].
      destruct (c =? 37).
      + destruct r as [|d r]; [eauto|]. cbn [List.length] in Hl.
        destruct (d =? 37).
        * destruct (IH r ltac:(lia)) as [[o ->]| ->]; cbn [bind]; eauto.
        * destruct r as [|e r]; [auto|]. cbn [List.length] in Hl.
          destruct (strtochar_total d e) as [[x ->]| ->]; [|auto]. cbn [bind].
          destruct (IH r ltac:(lia)) as [[o ->]| ->]; cbn [bind]; eauto.
      + destruct (IH r ltac:(lia)) as [[o ->]| ->]; cbn [bind]; eauto. }
  apply (G (List.length s)). lia.
Qed.

(** Encodings are injective and of bounded growth. *)
Lemma urlencode_inj s t : is_bytes s -> is_bytes t -> urlencode s = urlencode t -> s = t.
Proof.
  intros Hs Ht E. apply urlencode_roundtrip in Hs. apply urlencode_roundtrip in Ht. congruence.
Qed.

Lemma urlencode_app s t : urlencode (s ++ t) = urlencode s ++ urlencode t.
Proof. apply flat_map_app. Qed.

Lemma urlencode_chars s c : is_bytes s -> In c (urlencode s) ->
  c = 37 \/ unreserved c.
Proof.
  intros Hs Hc. apply in_flat_map in Hc as (x & Hx & Hc).
  assert (Hxb : x < 256) by (eapply Forall_forall in Hs; [exact Hs|assumption]).
  unfold urlencode1 in Hc. destruct (x =? 37).
  - cbn in Hc. unfold unreserved. intuition subst; auto; right; right; right; left; lia.
  - destruct (url_keep x) eqn:E.
    + destruct Hc as [<-|[]]. right. now apply url_keep_unreserved.
    + assert (D : forall d, d < 16 -> unreserved (hex_digit d)).
      { intros d Hd. unfold hex_digit, unreserved. destruct (d <? 10) eqn:Ed; lia. }
      destruct Hc as [<-|[<-|[<-|[]]]]; [auto| |]; right; apply D.
      * apply N.div_lt_upper_bound; lia.
      * apply N.mod_lt. lia.
Qed.
