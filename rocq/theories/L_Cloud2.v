(** * Lemmas: tag clouds, binary form. *)
From Verif Require Import Base M_Ints S_Ints M_Payload M_Url M_Cloud S_Url S_Cloud L_Ints L_Payload L_Url L_Cloud.

Lemma values_size_cons v s : values_size (v :: s) = len v + 1 + values_size s.
Proof. reflexivity. Qed.

Lemma values_size_total s : values_size s = total_values s.
Proof.
  unfold total_values. induction s as [|v s IH]; [reflexivity|].
  rewrite values_size_cons, IH. cbn [map concat]. rewrite !len_app. change (len [0]) with 1. lia.
Qed.

Lemma flat_cstring_len s : len (flat_map cstring s) = values_size s.
Proof.
  induction s as [|v s IH]; [reflexivity|]. rewrite values_size_cons. cbn [flat_map].
  unfold cstring at 1. rewrite !len_app, IH. change (len [0]) with 1. lia.
Qed.

Lemma cstring_app s r : cstring s ++ r = s ++ 0 :: r.
Proof. unfold cstring. now rewrite <- app_assoc. Qed.

Lemma write_cloud_len c : len (write_cloud c) = size_cloud c.
Proof.
  unfold write_cloud, size_cloud, cstring at 1. rewrite !len_app. change (len [1]) with 1. change (len [0]) with 1.
  assert (E : len (flat_map write_entry (tc_tags c)) =
    fold_right (fun kv n => len (fst kv) + 1 + 4 + values_size (snd kv) + n) 0 (tc_tags c)).
  { induction (tc_tags c) as [|kv m IH]; [reflexivity|]. cbn [flat_map fold_right].
    unfold write_entry at 1, cstring at 1. rewrite !len_app, flat_cstring_len, be32_len, IH.
    change (len [0]) with 1. now rewrite !N.add_assoc. }
  lia.
Qed.

Lemma parse_values_ok vs : forall fuel r vals, (List.length vs <= fuel)%nat ->
  Forall (fun v => ~ In 0 v) vs -> values_size vs < 2 ^ 32 ->
  parse_values fuel (values_size vs) (flat_map cstring vs ++ r) vals =
    Ok (fold_left (fun s v => sinsert v s) vs vals, r).
Proof.
  induction vs as [|v vs IH]; intros fuel r vals Hf Hn Ht.
  - destruct fuel; reflexivity.
  - inversion Hn as [|? ? Hv Hvs]; subst. rewrite values_size_cons in Ht |- *.
    destruct fuel as [|fuel]; [cbn in Hf; lia|]. cbn [List.length] in Hf.
    cbn [parse_values]. rewrite (proj2 (N.eqb_neq _ 0)) by lia.
    cbn [flat_map]. rewrite <- app_assoc, cstring_app, split0_app by assumption.
    replace ((len v + 1 + values_size vs + 2 ^ 32 - (len v + 1) mod 2 ^ 32) mod 2 ^ 32)
      with (values_size vs).
    + rewrite IH by (assumption || lia). reflexivity.
    + rewrite (N.mod_small (len v + 1)) by lia.
      replace (len v + 1 + values_size vs + 2 ^ 32 - (len v + 1)) with (values_size vs + 1 * 2 ^ 32) by lia.
      rewrite N.mod_add by lia. rewrite N.mod_small; lia.
Qed.

Lemma sinserts_id s : is_set s -> fold_left (fun s v => sinsert v s) s [] = s.
Proof.
  intros H. apply set_ext; [apply sinserts_set; constructor|assumption|].
  intros x. rewrite sinserts_in. cbn. intuition.
Qed.

Lemma StronglySorted_app_inv {A} (R : A -> A -> Prop) l x m :
  StronglySorted R (l ++ x :: m) -> Forall (fun y => R y x) l.
Proof.
  induction l as [|y l IH]; cbn; intros H; [constructor|].
  inversion H as [|? ? Hs Hf]; subst. constructor; [|now apply IH].
  rewrite Forall_forall in Hf. apply Hf, in_elt.
Qed.

Lemma flat_map_cons {A B} (f : A -> list B) x l : flat_map f (x :: l) = f x ++ flat_map f l.
Proof. reflexivity. Qed.

Lemma flat_cstring_length s : (List.length s <= List.length (flat_map cstring s))%nat.
Proof.
  induction s as [|v s IH]; [cbn; lia|]. rewrite flat_map_cons, app_length. unfold cstring at 1.
  rewrite app_length. cbn. lia.
Qed.

Lemma parse_entries_ok m : forall fuel acc, (List.length m <= fuel)%nat ->
  keys_sorted (acc ++ m) -> Forall (fun kv => is_set (snd kv)) m ->
  Forall (fun kv => ~ In 0 (fst kv) /\ Forall (fun v => ~ In 0 v) (snd kv)) m ->
  Forall (fun kv => values_size (snd kv) < 2 ^ 32) m ->
  parse_entries fuel (flat_map write_entry m) acc = Ok (acc ++ m).
Proof.
  induction m as [|[k s] m IH]; intros fuel acc Hf Hs Hset Hn Ht.
  - rewrite app_nil_r. destruct fuel; reflexivity.
  - inversion Hset as [|? ? Hset1 Hset2]; subst. inversion Hn as [|? ? [Hn1 Hn2] Hn3]; subst.
    inversion Ht as [|? ? Ht1 Ht2]; subst. cbn [fst snd] in *.
    destruct fuel as [|fuel]; [cbn in Hf; lia|]. cbn [List.length] in Hf.
    rewrite flat_map_cons. unfold write_entry at 1. cbn [fst snd].
    rewrite <- !app_assoc, cstring_app.
    rewrite N.mod_small by assumption.
    destruct (be32 (values_size s)) as [|b0 [|b1 [|b2 [|b3 [|]]]]] eqn:Eb; try discriminate Eb.
    assert (Ed : uint32_from_non_sync_safe4 b0 b1 b2 b3 = values_size s)
      by (now apply be32_decode).
    cbn [app].
    assert (E : forall l, parse_entries (S fuel) (k ++ 0 :: l) acc =
      match l with
      | b0 :: b1 :: b2 :: b3 :: r =>
              let* (vals, r') := parse_values (S (List.length r)) (uint32_from_non_sync_safe4 b0 b1 b2 b3) r [] in
              parse_entries fuel r' (mset k vals acc)
      | _ => UB BadIterator
      end).
    { intros l. cbn [parse_entries]. rewrite split0_app by assumption.
      destruct k; destruct l as [|? [|? [|? [|? ?]]]]; reflexivity. }
    rewrite E, Ed, parse_values_ok; [|eapply Nat.le_trans; [apply flat_cstring_length|]; apply le_S; rewrite app_length; apply Nat.le_add_r|assumption..].
    cbn [bind]. rewrite sinserts_id by assumption.
    rewrite mset_last.
    + change ((k, s) :: m) with ([(k, s)] ++ m). rewrite app_assoc. apply IH; try assumption; [lia|].
      rewrite <- app_assoc. exact Hs.
    + apply (StronglySorted_app_inv _ acc (k, s) m) in Hs. exact Hs.
Qed.

Lemma write_entry_length m : (List.length m <= List.length (flat_map write_entry m))%nat.
Proof.
  induction m as [|v s IH]; [cbn; lia|]. rewrite flat_map_cons, app_length. unfold write_entry at 1.
  rewrite app_length. unfold cstring. rewrite app_length. cbn. lia.
Qed.

Lemma cloud_roundtrip c : is_map (tc_tags c) -> ~ In 0 (tc_owner c) -> plain_map (tc_tags c) ->
  fits_map (tc_tags c) -> parse_cloud (write_cloud c) = Ok c.
Proof.
  intros [Hm Hs] Ho Hp Hf. unfold write_cloud. cbn [app parse_cloud].
  rewrite cstring_app, split0_app by assumption.
  rewrite parse_entries_ok.
  - destruct c; reflexivity.
  - pose proof (write_entry_length (tc_tags c)). lia.
  - exact Hm.
  - exact Hs.
  - eapply Forall_impl; [|exact Hp]. intros kv [[_ H1] H2]. split; [exact H1|].
    eapply Forall_impl; [|exact H2]. now intros v [_ ?].
  - eapply Forall_impl; [|exact Hf]. intros kv. cbn. now rewrite values_size_total.
Qed.

(** ** What the parser returns *)
Lemma sinsert_size v s : values_size (sinsert v s) <= len v + 1 + values_size s.
Proof.
  induction s as [|x s IH]; [cbn [sinsert]; rewrite values_size_cons; lia|].
  cbn [sinsert]. destruct (bcmp v x); rewrite !values_size_cons; lia.
Qed.

Lemma split0_bytes l v r : is_bytes l -> split0 l = (v, Some r) ->
  is_bytes v /\ is_bytes r /\ ~ In 0 v /\ len l = len v + 1 + len r.
Proof.
  intros Hb E. pose proof (split0_spec l) as H. rewrite E in H. destruct H as [-> H].
  apply is_bytes_app in Hb as [H1 H2]. inversion H2; subst. repeat split; auto.
  rewrite len_app, len_cons. lia.
Qed.

Lemma parse_values_inv fuel : forall cb l vals vs r, is_bytes l ->
  is_set vals -> Forall plain vals ->
  parse_values fuel cb l vals = Ok (vs, r) ->
  is_set vs /\ Forall plain vs /\ is_bytes r /\ len r <= len l /\
  values_size vs + len r <= values_size vals + len l.
Proof.
  induction fuel as [|fuel IH]; intros cb l vals vs r Hb Hs Hp; cbn [parse_values].
  - destruct (cb =? 0); [|discriminate]. intros [= <- <-]. repeat split; auto; lia.
  - destruct (cb =? 0); [intros [= <- <-]; repeat split; auto; lia|].
    destruct (split0 l) as [v [r'|]] eqn:E; [|discriminate].
    destruct (split0_bytes _ _ _ Hb E) as (Hv & Hr & Hn & Hl).
    intros H. apply IH in H; try assumption.
    + destruct H as (H1 & H2 & H3 & H4 & H5). pose proof (sinsert_size v vals). repeat split; auto; lia.
    + now apply sinsert_set.
    + rewrite Forall_forall in Hp |- *. intros x Hx. apply sinsert_in in Hx as [->|Hx]; auto.
      split; assumption.
Qed.

Lemma parse_entries_inv fuel : forall l m m', is_bytes l -> len l < 2 ^ 32 ->
  is_map m -> plain_map m -> fits_map m ->
  parse_entries fuel l m = Ok m' -> is_map m' /\ plain_map m' /\ fits_map m'.
Proof.
  induction fuel as [|fuel IH]; intros l m m' Hb Hl Hm Hp Hf.
  - cbn [parse_entries]. destruct l; [|discriminate]. intros [= <-]. auto.
  - destruct l as [|c l]; [intros [= <-]; auto|]. cbn [parse_entries].
    destruct (split0 (c :: l)) as [k [[|b0 [|b1 [|b2 [|b3 r]]]]|]] eqn:E; try discriminate.
    destruct (split0_bytes _ _ _ Hb E) as (Hk & Hr & Hn & Hlen).
    rewrite !len_cons in Hlen.
    assert (Hr' : is_bytes r) by (repeat (apply Forall_inv_tail in Hr); exact Hr).
    destruct (parse_values _ _ r []) as [[vs r']| | |] eqn:Ev; cbn [bind]; try discriminate.
    apply parse_values_inv in Ev as (Hs & Hv & Hb' & Hl' & Ht); [|assumption|constructor|constructor].
    change (values_size []) with 0 in Ht.
    intros H. apply IH in H; [exact H| assumption | rewrite len_cons in *; lia | | | ].
    + now apply mset_map.
    + unfold plain_map in *. rewrite Forall_forall in Hp |- *. intros [x t] Hx.
      apply mset_in in Hx; [|apply Hm]. destruct Hx as [[-> ->]|[_ Hx]].
      * split; [split|]; assumption.
      * now apply Hp in Hx.
    + unfold fits_map in *. rewrite Forall_forall in Hf |- *. intros [x t] Hx.
      apply mset_in in Hx; [|apply Hm]. destruct Hx as [[-> ->]|[_ Hx]].
      * cbn. rewrite <- values_size_total. rewrite len_cons in *. lia.
      * now apply Hf in Hx.
Qed.

Lemma parse_cloud_inv l c : is_bytes l -> len l < 2 ^ 32 -> parse_cloud l = Ok c ->
  is_map (tc_tags c) /\ plain (tc_owner c) /\ plain_map (tc_tags c) /\ fits_map (tc_tags c).
Proof.
  destruct l as [|v r]; [discriminate|]. intros Hb Hl. cbn [parse_cloud].
  apply Forall_inv_tail in Hb. rewrite len_cons in Hl.
  destruct (split0 r) as [own [r'|]] eqn:E; [|discriminate].
  destruct (split0_bytes _ _ _ Hb E) as (Ho & Hr & Hn & Hlen).
  destruct (parse_entries _ r' []) as [m| | |] eqn:Em; cbn [bind]; try discriminate.
  intros [= <-]. cbn [tc_tags tc_owner].
  apply parse_entries_inv in Em as (H1 & H2 & H3); try assumption; try lia;
    try (now constructor); try (now split; constructor).
Qed.

Lemma cloud_stable l c : is_bytes l -> len l < 2 ^ 32 -> parse_cloud l = Ok c ->
  parse_cloud (write_cloud c) = Ok c.
Proof.
  intros Hb Hl H. apply parse_cloud_inv in H as (H1 & [_ H2] & H3 & H4); try assumption.
  now apply cloud_roundtrip.
Qed.

(** The parser terminates on every input. *)
Lemma parse_values_term fuel : forall cb l vals, (List.length l < fuel)%nat ->
  parse_values fuel cb l vals <> NonTerm.
Proof.
  induction fuel as [|fuel IH]; intros cb l vals Hl; [lia|]. cbn [parse_values].
  destruct (cb =? 0); [discriminate|].
  pose proof (split0_spec l) as S. destruct (split0 l) as [v [r|]]; [|discriminate].
  apply IH. destruct S as [-> _]. rewrite app_length in Hl. cbn in Hl. lia.
Qed.

Lemma parse_values_shorter fuel : forall cb l vals vs r,
  parse_values fuel cb l vals = Ok (vs, r) -> (List.length r <= List.length l)%nat.
Proof.
  induction fuel as [|fuel IH]; intros cb l vals vs r; cbn [parse_values].
  - destruct (cb =? 0); [|discriminate]. intros [= <- <-]. lia.
  - destruct (cb =? 0); [intros [= <- <-]; lia|].
    pose proof (split0_spec l) as S. destruct (split0 l) as [v [r'|]]; [|discriminate].
    intros H. apply IH in H. destruct S as [-> _]. rewrite app_length. cbn. lia.
Qed.

Lemma parse_entries_term fuel : forall l m, (List.length l < fuel)%nat ->
  parse_entries fuel l m <> NonTerm.
Proof.
  induction fuel as [|fuel IH]; intros l m Hl; [lia|]. destruct l as [|c l]; [discriminate|].
  cbn [parse_entries]. pose proof (split0_spec (c :: l)) as Sp.
  destruct (split0 (c :: l)) as [k [[|b0 [|b1 [|b2 [|b3 r]]]]|]]; try discriminate.
  destruct Sp as [Sp _].
  destruct (parse_values (S (List.length r)) _ r []) as [[vs r']| | |] eqn:Ev; cbn [bind]; try discriminate.
  - apply IH. apply parse_values_shorter in Ev. rewrite Sp in Hl. rewrite app_length in Hl. cbn in Hl. lia.
  - exfalso. refine (parse_values_term _ _ _ _ _ Ev); lia.
Qed.

Lemma parse_cloud_term l : parse_cloud l <> NonTerm.
Proof.
  destruct l as [|v r]; [discriminate|]. cbn [parse_cloud].
  destruct (split0 r) as [own [r'|]]; [|discriminate].
  destruct (parse_entries _ r' []) eqn:E; cbn [bind]; try discriminate.
  exfalso. refine (parse_entries_term _ _ _ _ E); lia.
Qed.
