(** * Lemmas: frame payloads. *)
From Verif Require Import Base M_Payload S_Ints S_Payload L_Ints.

(** ** Counters *)
Lemma positional_app base l d : positional base (l ++ [d]) = positional base l * base + d.
Proof. unfold positional. now rewrite fold_left_app. Qed.

Lemma counter_digits_value k n : positional 256 (counter_digits k n) = n mod 256 ^ N.of_nat k.
Proof.
  revert n. induction k as [|k IH]; intros n.
  - cbn. now rewrite N.mod_1_r.
  - cbn [counter_digits]. rewrite positional_app, IH.
    rewrite N.land_comm, land255. rewrite N.shiftr_div_pow2. change (2 ^ 8) with 256.
    rewrite Nat2N.inj_succ, N.pow_succ_r'.
    rewrite N.mod_mul_r by (try lia; apply N.pow_nonzero; lia). lia.
Qed.

Lemma counter_digits_len k n : List.length (counter_digits k n) = k.
Proof.
  revert n. induction k as [|k IH]; intros n; [reflexivity|].
  cbn [counter_digits]. rewrite app_length, IH. cbn. lia.
Qed.

Lemma counter_digits_bytes k n : is_bytes (counter_digits k n).
Proof.
  revert n. induction k as [|k IH]; intros n; [constructor|].
  cbn [counter_digits]. apply is_bytes_app. split; [apply IH|]. constructor; [|constructor].
  unfold is_byte. rewrite N.land_comm, land255. apply N.mod_lt. lia.
Qed.

Lemma hd_app {A} (d : A) l m : l <> [] -> hd d (l ++ m) = hd d l.
Proof. destruct l; [congruence|reflexivity]. Qed.

Lemma counter_digits_hd k n : hd 0 (counter_digits (S k) n) = N.shiftr n (8 * N.of_nat k) mod 256.
Proof.
  revert n. induction k as [|k IH]; intros n.
  - cbn [counter_digits app hd]. rewrite N.land_comm, land255. now rewrite N.shiftr_0_r.
  - change (counter_digits (S (S k)) n) with (counter_digits (S k) (N.shiftr n 8) ++ [N.land 255 n]).
    rewrite hd_app.
    + rewrite IH, N.shiftr_shiftr. do 2 f_equal. lia.
    + intros E. apply (f_equal (@List.length N)) in E. rewrite counter_digits_len in E. discriminate.
Qed.

Lemma log2_div8 n : n <> 0 ->
  256 ^ (N.log2 n / 8) <= n /\ n < 256 ^ (N.log2 n / 8 + 1).
Proof.
  intros H. assert (Hp : 0 < n) by lia. apply N.log2_spec in Hp as [H1 H2].
  change 256 with (2 ^ 8). rewrite <- !N.pow_mul_r.
  pose proof (N.div_mod (N.log2 n) 8 ltac:(lia)) as E.
  pose proof (N.mod_lt (N.log2 n) 8 ltac:(lia)) as M. split.
  - eapply N.le_trans; [|exact H1]. apply N.pow_le_mono_r; lia.
  - eapply N.lt_le_trans; [exact H2|]. apply N.pow_le_mono_r; lia.
Qed.

Lemma reset_counter_value n : positional 256 (reset_counter n) = n.
Proof.
  unfold reset_counter. destruct (N.eqb_spec n 0) as [->|H]; [reflexivity|].
  rewrite counter_digits_value, N2Nat.id. apply N.mod_small. now apply log2_div8.
Qed.

Lemma reset_counter_bytes n : is_bytes (reset_counter n).
Proof.
  unfold reset_counter. destruct (n =? 0); [repeat constructor|apply counter_digits_bytes].
Qed.

Lemma reset_counter_shortest n : reset_counter n = [0] \/ hd 0 (reset_counter n) <> 0.
Proof.
  unfold reset_counter. destruct (N.eqb_spec n 0) as [->|H]; [now left|right].
  replace (N.to_nat (N.log2 n / 8 + 1)) with (S (N.to_nat (N.log2 n / 8))) by lia.
  rewrite counter_digits_hd, N2Nat.id.
  destruct (log2_div8 n H) as [H1 H2].
  rewrite N.shiftr_div_pow2. rewrite N.pow_mul_r. change (2 ^ 8) with 256.
  set (q := 256 ^ (N.log2 n / 8)) in *.
  assert (Hq : q <> 0) by (apply N.pow_nonzero; lia).
  rewrite N.add_1_r, N.pow_succ_r' in H2. fold q in H2.
  rewrite N.mod_small by (apply N.div_lt_upper_bound; lia).
  intros E. apply N.div_small_iff in E; lia.
Qed.

Lemma reset_counter_len n : n < 2 ^ 32 -> (1 <= List.length (reset_counter n) <= 4)%nat.
Proof.
  intros H. unfold reset_counter. destruct (N.eqb_spec n 0) as [->|Hn]; [cbn; lia|].
  rewrite counter_digits_len.
  assert (N.log2 n < 32) by (apply N.log2_lt_pow2; lia).
  assert (N.log2 n / 8 < 4) by (apply N.div_lt_upper_bound; lia). lia.
Qed.

Lemma counter_value_positional c : is_bytes c -> (1 <= List.length c <= 4)%nat ->
  counter_value c = Ok (positional 256 c).
Proof.
  intros Hb Hl.
  assert (L : forall x y n, y < 2 ^ n -> N.lor (x * 2 ^ n) y = x * 2 ^ n + y).
  { intros x y n Hy. apply (lor_add _ _ n); [apply N.mod_mul, N.pow_nonzero; lia|assumption]. }
  unfold is_bytes, is_byte in Hb.
  destruct c as [|a [|b [|c [|d [|e c']]]]]; cbn [List.length] in Hl; try lia;
    repeat match goal with H : Forall _ (_ :: _) |- _ => inversion H; clear H; subst end;
    unfold counter_value, positional; cbn [fold_left]; f_equal; rewrite ?N.shiftl_mul_pow2.
  - rewrite L by assumption. reflexivity.
  - rewrite <- N.lor_assoc. rewrite (L b c 8) by assumption. rewrite L by (cbn; lia). cbn. lia.
  - rewrite <- !N.lor_assoc. rewrite (L c d 8) by assumption. rewrite (L b _ 16) by (cbn; lia). rewrite L by (cbn; lia). cbn. lia.
Qed.

Lemma counter_set_read n : n < 2 ^ 32 -> counter_value (reset_counter n) = Ok n.
Proof.
  intros H. rewrite counter_value_positional;
    [now rewrite reset_counter_value|apply reset_counter_bytes|now apply reset_counter_len].
Qed.

Lemma counter_too_long c : (4 < List.length c)%nat -> counter_value c = Throw DomainError.
Proof. destruct c as [|a [|b [|c [|d [|e c']]]]]; cbn; try lia; reflexivity. Qed.

Lemma counter_inc_adds c n : counter_value c = Ok n -> n + 1 < 2 ^ 32 ->
  exists c', counter_inc c = Ok c' /\ counter_value c' = Ok (n + 1).
Proof.
  intros H Hn. unfold counter_inc. rewrite H. cbn [bind]. eexists. split; [reflexivity|].
  now apply counter_set_read.
Qed.

Lemma counter_inc_max : exists c c', counter_value c = Ok (2 ^ 32 - 1) /\
  counter_inc c = Ok c' /\ counter_value c' = Throw DomainError.
Proof. exists [255; 255; 255; 255]. eexists. vm_compute. repeat split. Qed.

Lemma counter_histories k n : n + N.of_nat k < 2 ^ 32 ->
  fold_left (fun c _ => let* x := c in counter_inc x) (repeat tt k) (Ok (reset_counter n)) =
  Ok (reset_counter (n + N.of_nat k)).
Proof.
  revert n. induction k as [|k IH]; intros n H.
  - cbn [repeat fold_left]. now rewrite N.add_0_r.
  - cbn [repeat fold_left bind]. unfold counter_inc at 2. rewrite counter_set_read by lia. cbn [bind].
    rewrite IH by lia. do 2 f_equal. lia.
Qed.

(** ** Splitting at NUL *)
Lemma split0_app o r : ~ In 0 o -> split0 (o ++ 0 :: r) = (o, Some r).
Proof.
  induction o as [|b o IH]; intros H; [reflexivity|]. cbn [app split0].
  rewrite (proj2 (N.eqb_neq b 0)) by (intros ->; apply H; now left).
  rewrite IH by (intros Hi; apply H; now right). reflexivity.
Qed.

Lemma split0_spec l : match split0 l with
  | (o, Some r) => l = o ++ 0 :: r /\ ~ In 0 o
  | (o, None) => o = l /\ ~ In 0 l
  end.
Proof.
  induction l as [|b l IH]; cbn [split0]; [auto|].
  destruct (N.eqb_spec b 0) as [->|H].
  - split; [reflexivity|]. intros [].
  - destruct (split0 l) as [o [r|]].
    + destruct IH as [-> IH]. split; [reflexivity|]. intros [E|E]; auto.
    + destruct IH as [-> IH]. split; [reflexivity|]. intros [E|E]; auto.
Qed.

(** ** UFID *)
Lemma ufid_roundtrip u : ~ In 0 (uf_owner u) ->
  parse_ufid (write_ufid u) = u /\ len (write_ufid u) = size_ufid u.
Proof.
  intros H. unfold parse_ufid, write_ufid, size_ufid. cbn [app].
  rewrite split0_app by assumption. split; [now destruct u|].
  rewrite len_app, len_cons. lia.
Qed.

Lemma ufid_parse_owner l : ~ In 0 (uf_owner (parse_ufid l)).
Proof.
  unfold parse_ufid. pose proof (split0_spec l) as H.
  destruct (split0 l) as [o [r|]]; destruct H as [H1 H2]; [exact H2|now subst o].
Qed.

Lemma ufid_identical l : In 0 l -> write_ufid (parse_ufid l) = l.
Proof.
  intros H. unfold parse_ufid. pose proof (split0_spec l) as S.
  destruct (split0 l) as [o [r|]]; destruct S as [S1 S2]; [now rewrite S1|contradiction].
Qed.

(** ** ENCR *)
Lemma encr_refuted : exists e b, write_encr e = Ok b /\ ~ In 0 (en_email e) /\
  parse_encr b <> e /\ len b <> size_encr e.
Proof.
  exists (mkEncr (B "a@b") (Some 5) [1; 2; 3]). eexists. split; [reflexivity|].
  split; [cbn; intuition discriminate|]. split; vm_compute; discriminate.
Qed.

Lemma encr_size_off e b : write_encr e = Ok b -> len b + 1 = size_encr e.
Proof.
  unfold write_encr, size_encr. destruct (en_method e); [|discriminate].
  intros [= <-]. rewrite !len_app, len_cons. lia.
Qed.

(** What comes back: without the NUL the method symbol is read as part of the
    e-mail, up to the first NUL of the data. *)
Lemma encr_reparse e m b : en_method e = Some m -> m <> 0 -> ~ In 0 (en_email e) ->
  write_encr e = Ok b -> en_email (parse_encr b) <> en_email e.
Proof.
  intros Hm Hm0 Hn. unfold write_encr. rewrite Hm. intros [= <-].
  unfold parse_encr.
  assert (G : forall l r, ~ In 0 l -> fst (split0 (l ++ r)) = l ++ fst (split0 r)).
  { induction l as [|x l IH]; intros r Hl; [reflexivity|]. cbn [app split0].
    rewrite (proj2 (N.eqb_neq x 0)) by (intros ->; apply Hl; now left).
    specialize (IH r (fun H => Hl (or_intror H))).
    destruct (split0 (l ++ r)) as [o s]. cbn [fst] in *. now rewrite IH. }
  assert (E : fst (split0 (en_email e ++ m :: en_data e)) <> en_email e).
  { rewrite G by assumption. cbn [split0]. rewrite (proj2 (N.eqb_neq m 0) Hm0).
    destruct (split0 (en_data e)) as [o s]. cbn [fst]. intros E.
    apply (f_equal (@List.length N)) in E. rewrite app_length in E. cbn in E. lia. }
  destruct (split0 (en_email e ++ m :: en_data e)) as [o [[|x r]|]]; exact E.
Qed.

(** ** Text *)
Lemma text_roundtrip t after : parse_text (write_text t) after = Ok t /\ len (write_text t) = size_text t.
Proof. destruct t. split; [reflexivity|]. unfold write_text, size_text. now rewrite len_cons. Qed.

Lemma text_identical l after t : parse_text l after = Ok t -> write_text t = l.
Proof.
  destruct l; cbn; [destruct after; discriminate|]. now intros [= <-].
Qed.

(** ** Terminated strings *)
Lemma find_null1_at d t after : ~ In 0 d -> find_null1 (d ++ 0 :: t) after = Ok (len d).
Proof.
  induction d as [|b d IH]; intros H; [reflexivity|]. cbn [app find_null1].
  rewrite (proj2 (N.eqb_neq b 0)) by (intros ->; apply H; now left).
  destruct ((d ++ 0 :: t) ++ after) eqn:E; [destruct d; discriminate|].
  rewrite IH by (intros Hi; apply H; now right). cbn [bind]. f_equal. now rewrite len_cons.
Qed.

Lemma find_null2_at d t after : units2 d -> find_null2 (d ++ 0 :: 0 :: t) after = Ok (len d).
Proof.
  induction 1 as [|a b d H Hd IH]; [reflexivity|]. cbn [app find_null2].
  destruct ((a =? 0) && (b =? 0)) eqn:E; [elim H; lia|].
  rewrite IH. cbn [bind]. f_equal. rewrite !len_cons. lia.
Qed.

Lemma nul_width_cbnil v u : nul_width v u (cbnil_of v u).
Proof.
  destruct v; cbn.
  - destruct (N.eqb_spec u 0); auto.
  - destruct (N.eqb_spec u 0); auto.
  - destruct (N.eqb_spec u 0), (N.eqb_spec u 3); cbn; auto.
Qed.

Lemma nul_width_fun v u w : nul_width v u w -> w = cbnil_of v u.
Proof.
  destruct v; cbn; intros H;
    destruct (N.eqb_spec u 0); try destruct (N.eqb_spec u 3); cbn; intuition congruence.
Qed.

Lemma nul_width_12 v u w : nul_width v u w -> w = 1 \/ w = 2.
Proof. destruct v; cbn; intuition. Qed.

Lemma cbnil_12 v u : cbnil_of v u = 1 \/ cbnil_of v u = 2.
Proof. apply (nul_width_12 v u), nul_width_cbnil. Qed.

Lemma described_at cu d t after : terminable cu d ->
  parse_described cu (d ++ repeatN 0 cu ++ t) after = Ok (d, t).
Proof.
  intros [[-> H]|[-> H]]; unfold parse_described, find_null.
  - change (repeatN 0 1) with [0]. cbn [app].
    change (1 =? 1) with true. cbv iota.
    rewrite find_null1_at by assumption. cbn [bind].
    rewrite len_app, len_cons. replace (len d + 1 <=? len d + (1 + len t)) with true by lia.
    rewrite <- app_assoc. rewrite takeN_app_exact by reflexivity.
    replace (len d + 1) with (len (d ++ [0])) by (rewrite len_app; reflexivity).
    change (0 :: t) with ([0] ++ t). rewrite app_assoc, dropN_app_exact by reflexivity. reflexivity.
  - change (repeatN 0 2) with [0; 0]. cbn [app].
    change (2 =? 1) with false. cbv iota.
    rewrite find_null2_at by assumption. cbn [bind].
    rewrite len_app, !len_cons. replace (len d + 2 <=? len d + (1 + (1 + len t))) with true by lia.
    rewrite <- app_assoc. rewrite takeN_app_exact by reflexivity.
    replace (len d + 2) with (len (d ++ [0; 0])) by (rewrite len_app; reflexivity).
    change (0 :: 0 :: t) with ([0; 0] ++ t). rewrite app_assoc, dropN_app_exact by reflexivity. reflexivity.
Qed.

Lemma find_null1_take l after n : find_null1 l after = Ok n ->
  n <= len l /\ ~ In 0 (takeN n l).
Proof.
  revert n. induction l as [|b l IH]; intros n.
  - intros [= <-]. split; [lia|]. intros [].
  - cbn [find_null1]. destruct (N.eqb_spec b 0) as [->|Hb].
    + intros [= <-]. split; [lia|]. rewrite takeN_0. intros [].
    + destruct (l ++ after); [discriminate|].
      destruct (find_null1 l after) as [m| | |]; cbn [bind]; try discriminate.
      intros E; apply Ok_inj in E; subst n. destruct (IH m eq_refl) as [H1 H2]. rewrite len_cons. split; [lia|].
      rewrite takeN_firstn. replace (N.to_nat (1 + m)) with (S (N.to_nat m)) by lia.
      cbn [firstn]. rewrite <- takeN_firstn. intros [E|E]; [congruence|auto].
Qed.

Lemma takeN_SS {A} (a b : A) l n : takeN (2 + n) (a :: b :: l) = a :: b :: takeN n l.
Proof.
  rewrite !takeN_firstn. now replace (N.to_nat (2 + n)) with (S (S (N.to_nat n))) by lia.
Qed.

Lemma find_null2_take l after n : find_null2 l after = Ok n ->
  n <= len l + 1 /\ n <= len (l ++ after) /\ units2 (takeN n (l ++ after)).
Proof.
  revert n.
  assert (G : forall k l n, (List.length l <= k)%nat -> find_null2 l after = Ok n ->
     n <= len l + 1 /\ n <= len (l ++ after) /\ units2 (takeN n (l ++ after))).
  { induction k as [|k IH]; intros [|b0 [|b1 r]] n Hl; cbn [List.length] in Hl; try lia;
      cbn [find_null2].
    - intros [= <-]. rewrite takeN_0. repeat split; try lia. constructor.
    - intros [= <-]. rewrite takeN_0. repeat split; try lia. constructor.
    - destruct after as [|b1 a]; [discriminate|]. intros [= <-].
      destruct ((b0 =? 0) && (b1 =? 0)) eqn:E.
      + rewrite takeN_0. repeat split; try lia. constructor.
      + cbn [app]. rewrite !len_cons. repeat split; try lia.
        change 2 with (2 + 0). rewrite takeN_SS, takeN_0. constructor; [|constructor]. lia.
    - destruct ((b0 =? 0) && (b1 =? 0)) eqn:E.
      + intros [= <-]. rewrite takeN_0. repeat split; try lia. constructor.
      + destruct (find_null2 r after) as [m| | |] eqn:Er; cbn [bind]; try discriminate.
        intros E'; apply Ok_inj in E'; subst n. destruct (IH r m ltac:(lia) Er) as (H1 & H2 & H3).
        cbn [app]. rewrite !len_cons. repeat split; try lia.
        rewrite takeN_SS. constructor; [lia|assumption]. }
  intros n. apply (G (List.length l)). lia.
Qed.

Lemma described_terminable cu l after d t : cu = 1 \/ cu = 2 ->
  parse_described cu l after = Ok (d, t) -> terminable cu d.
Proof.
  unfold parse_described, find_null. intros [->| ->].
  - change (1 =? 1) with true. cbv iota.
    destruct (find_null1 l after) as [n| | |] eqn:E; cbn [bind]; try discriminate.
    intros H. injection H as <- <-. left. split; [reflexivity|].
    apply find_null1_take in E as [H1 H2]. now rewrite takeN_app_le.
  - change (2 =? 1) with false. cbv iota.
    destruct (find_null2 l after) as [n| | |] eqn:E; cbn [bind]; try discriminate.
    intros H. injection H as <- <-. right. split; [reflexivity|].
    now apply find_null2_take in E as (H1 & H2 & H3).
Qed.

(** ** TXXX *)
Lemma write_txxx_eq v t : wf_txxx v t ->
  write_txxx t = ud_unicode t :: ud_desc t ++ repeatN 0 (ud_cbnil t) ++ ud_text t.
Proof.
  intros [H _]. unfold write_txxx. apply nul_width_12 in H as [->| ->]; reflexivity.
Qed.

Lemma txxx_roundtrip v t after : wf_txxx v t ->
  parse_txxx v (write_txxx t) after = Ok t /\ len (write_txxx t) = size_txxx t.
Proof.
  intros W. rewrite (write_txxx_eq v t W). destruct W as [Hw Hd]. split.
  - cbn [parse_txxx]. rewrite <- (nul_width_fun _ _ _ Hw). rewrite described_at by assumption.
    cbn [bind]. now destruct t.
  - unfold size_txxx. rewrite len_cons, !len_app, len_repeatN. lia.
Qed.

Lemma txxx_parsed_wf v l after t : parse_txxx v l after = Ok t -> wf_txxx v t.
Proof.
  destruct l as [|u r]; cbn [parse_txxx].
  - destruct after as [|u a]; [discriminate|]. intros [= <-]. split; cbn.
    + apply nul_width_cbnil.
    + destruct (cbnil_12 v u) as [->| ->]; [left|right]; split; auto; constructor.
  - destruct (parse_described (cbnil_of v u) r after) as [[d t0]| | |] eqn:E; cbn [bind]; try discriminate.
    intros [= <-]. split; cbn; [apply nul_width_cbnil|].
    eapply described_terminable; [apply cbnil_12|exact E].
Qed.

Lemma txxx_identical v u r after t : has_terminator (cbnil_of v u) r ->
  parse_txxx v (u :: r) after = Ok t -> write_txxx t = u :: r.
Proof.
  intros (d & x & Hd & ->). cbn [parse_txxx]. rewrite described_at by assumption. cbn [bind].
  intros [= <-].
  rewrite (write_txxx_eq v) by (split; [apply nul_width_cbnil|assumption]). reflexivity.
Qed.

Lemma txxx_scratch_refuted : exists text dsc t after,
  make_txxx V24 uni_yes text dsc = t /\ ~ In 0 dsc /\ parse_txxx V24 (write_txxx t) after <> Ok t.
Proof.
  exists (B "abc"), (B "d"), (make_txxx V24 uni_yes (B "abc") (B "d")), [].
  split; [reflexivity|]. split; [cbn; intuition discriminate|]. vm_compute. discriminate.
Qed.

Lemma txxx_scratch_wf v uni text dsc :
  (v = V24 -> uni = uni_no) ->
  (match uni with uni_no => terminable 1 dsc | _ => terminable 2 dsc end) ->
  wf_txxx v (make_txxx v uni text dsc).
Proof.
  intros H1 H2. destruct v, uni; try (discriminate (H1 eq_refl)); split; cbn; auto;
    right; split; auto; discriminate.
Qed.

(** The description may contain a byte that is not part of the frame. *)
Lemma txxx_overread_refuted : exists l a1 a2 t1 t2, a1 <> [] /\ a2 <> [] /\
  parse_txxx V23 l a1 = Ok t1 /\ parse_txxx V23 l a2 = Ok t2 /\ ud_desc t1 <> ud_desc t2.
Proof.
  exists [1; 65; 0; 66], [67], [68]. do 2 eexists.
  split; [discriminate|]. split; [discriminate|]. vm_compute.
  split; [reflexivity|]. split; [reflexivity|]. discriminate.
Qed.

(** ** COMM *)
Lemma comm_roundtrip v c after : wf_comm v c ->
  exists b, write_comm c = Ok b /\ len b = size_comm c /\ parse_comm v b after = Ok c.
Proof.
  intros (u & lg & Hu & Hl & Hlen & Hok & Hw & Hd).
  unfold write_comm. rewrite Hu, Hl.
  assert (Hz : takeN (co_cbnil c) [0; 0] = repeatN 0 (co_cbnil c))
    by (apply nul_width_12 in Hw as [->| ->]; reflexivity).
  rewrite Hz. eexists. split; [reflexivity|]. split.
  - unfold size_comm. rewrite !len_app, len_repeatN, Hlen. change (len [u]) with 1. lia.
  - cbn [app parse_comm].
    replace (comm_unicode_ok v u) with true by (destruct v; cbn; lia).
    rewrite len_app, Hlen. replace (3 <=? 3 + _) with true by lia.
    rewrite (dropN_app_exact 3 lg), (takeN_app_exact 3 lg) by assumption.
    rewrite <- (nul_width_fun _ _ _ Hw).
    destruct (co_desc c ++ repeatN 0 (co_cbnil c) ++ co_text c) eqn:E.
    + apply nul_width_12 in Hw as [Hc|Hc]; rewrite Hc in E;
        destruct (co_desc c); discriminate E.
    + rewrite <- E, described_at by assumption. cbn [bind].
      destruct c; cbn in Hu, Hl |- *; now subst.
Qed.

Lemma comm_parsed_wf v l after c : (4 <= len l) -> parse_comm v l after = Ok c -> wf_comm v c.
Proof.
  destruct l as [|u r]; [cbn; lia|]. rewrite len_cons. intros Hl. cbn [parse_comm].
  destruct (comm_unicode_ok v u) eqn:Hu; [|discriminate].
  replace (3 <=? len r) with true by lia.
  assert (Hl3 : len (takeN 3 r) = 3) by (rewrite len_takeN; lia).
  assert (Hv : match v with V24 => u <= 3 | _ => u <= 1 end) by (destruct v; cbn in Hu; lia).
  destruct (dropN 3 r) as [|b r'].
  - intros [= <-]. exists u, (takeN 3 r). cbn [co_unicode co_lang co_cbnil co_desc].
    split; [reflexivity|]. split; [reflexivity|]. split; [exact Hl3|]. split; [exact Hv|].
    split; [apply nul_width_cbnil|].
    destruct (cbnil_12 v u) as [->| ->]; [left|right]; split; auto; constructor.
  - destruct (parse_described (cbnil_of v u) (b :: r') after) as [[d t0]| | |] eqn:E;
      cbn [bind]; try discriminate.
    intros [= <-]. exists u, (takeN 3 r). cbn [co_unicode co_lang co_cbnil co_desc].
    split; [reflexivity|]. split; [reflexivity|]. split; [exact Hl3|]. split; [exact Hv|].
    split; [apply nul_width_cbnil|].
    eapply described_terminable; [apply cbnil_12|exact E].
Qed.

Lemma comm_short_refuted : exists l after c, parse_comm V23 l after = Ok c /\
  write_comm c = UB Uninitialised.
Proof. exists [0; 101; 110], [], (mkComm 1 (Some 0) None [] []). split; reflexivity. Qed.

Lemma comm_scratch_wf v lang uni text dsc : len lang = 3 ->
  (match uni, v with uni_no, _ => terminable 1 dsc | _, V24 => terminable 1 dsc | _, _ => terminable 2 dsc end) ->
  wf_comm v (make_comm v lang uni text dsc).
Proof.
  intros Hl Hd. destruct v, uni; do 2 eexists; cbn [make_comm co_unicode co_lang co_cbnil co_desc];
    (split; [reflexivity|]); (split; [reflexivity|]); (split; [exact Hl|]); (split; [lia|]);
    (split; [cbn; intuition discriminate|]); exact Hd.
Qed.

Lemma comm_identical v u lg r after c : len lg = 3 -> has_terminator (cbnil_of v u) r ->
  parse_comm v (u :: lg ++ r) after = Ok c -> write_comm c = Ok (u :: lg ++ r).
Proof.
  intros Hl (d & x & Hd & ->). cbn [parse_comm].
  destruct (comm_unicode_ok v u); [|discriminate].
  rewrite len_app, Hl. replace (3 <=? 3 + _) with true by lia.
  rewrite (dropN_app_exact 3 lg), (takeN_app_exact 3 lg) by assumption.
  destruct (d ++ repeatN 0 (cbnil_of v u) ++ x) eqn:E.
  - destruct (cbnil_12 v u) as [Hc|Hc]; rewrite Hc in E; destruct d; discriminate E.
  - rewrite <- E, described_at by assumption. cbn [bind]. intros [= <-].
    unfold write_comm. cbn [co_unicode co_lang co_cbnil co_desc co_text].
    replace (takeN (cbnil_of v u) [0; 0]) with (repeatN 0 (cbnil_of v u)); [reflexivity|].
    destruct (cbnil_12 v u) as [->| ->]; reflexivity.
Qed.

(** ** POPM *)
Lemma popm_roundtrip p after : ~ In 0 (po_email p) ->
  parse_popm (write_popm p) after = Ok p /\ len (write_popm p) = size_popm p.
Proof.
  intros H. unfold parse_popm, write_popm, size_popm. cbn [app].
  rewrite split0_app by assumption. split; [now destruct p|].
  rewrite len_app, !len_cons. lia.
Qed.

Lemma popm_identical l after p : parse_popm l after = Ok p ->
  write_popm p = l /\ ~ In 0 (po_email p).
Proof.
  unfold parse_popm. pose proof (split0_spec l) as S.
  destruct (split0 l) as [o [[|x r]|]]; destruct S as [S1 S2].
  - destruct after; discriminate.
  - intros [= <-]. split; [now rewrite S1|assumption].
  - destruct after as [|? [|? ?]]; discriminate.
Qed.

Lemma popm_scratch own rating n after : ~ In 0 own -> n < 2 ^ 32 ->
  exists p, parse_popm (write_popm (make_popm own rating n)) after = Ok p /\
    po_email p = own /\ po_rating p = rating /\ counter_value (po_counter p) = Ok n.
Proof.
  intros H Hn. eexists. split; [now apply popm_roundtrip|].
  split; [reflexivity|]. split; [reflexivity|]. now apply counter_set_read.
Qed.

Lemma popm_short_refuted : exists l after, 0 < len l /\ parse_popm l after = UB OutOfBounds.
Proof. exists (B "a@b"), []. split; [reflexivity|]. reflexivity. Qed.

(** ** PRIV *)
Lemma priv_roundtrip p : ~ In 0 (pr_email p) ->
  parse_priv (write_priv p) = Ok p /\ len (write_priv p) = size_priv p.
Proof.
  intros H. unfold parse_priv, write_priv, size_priv. cbn [app].
  rewrite split0_app by assumption. split; [now destruct p|].
  rewrite len_app, !len_cons. lia.
Qed.

Lemma priv_identical l p : parse_priv l = Ok p -> write_priv p = l /\ ~ In 0 (pr_email p).
Proof.
  unfold parse_priv. pose proof (split0_spec l) as S.
  destruct (split0 l) as [o [r|]]; destruct S as [S1 S2]; [|discriminate].
  intros [= <-]. split; [now rewrite S1|assumption].
Qed.

Lemma priv_short_refuted : exists l, 0 < len l /\ parse_priv l = UB BadIterator.
Proof. exists (B "a@b"). split; reflexivity. Qed.

Lemma txxx_identical' v u w r after t : nul_width v u w -> has_terminator w r ->
  parse_txxx v (u :: r) after = Ok t -> write_txxx t = u :: r.
Proof. intros Hw. rewrite (nul_width_fun _ _ _ Hw). apply txxx_identical. Qed.

Lemma comm_identical' v u w lg r after c : len lg = 3 -> nul_width v u w -> has_terminator w r ->
  parse_comm v (u :: lg ++ r) after = Ok c -> write_comm c = Ok (u :: lg ++ r).
Proof. intros Hl Hw. rewrite (nul_width_fun _ _ _ Hw). now apply comm_identical. Qed.
