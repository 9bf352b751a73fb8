(** * C26: texts that mention a key without values a second time. *)
From Verif Require Import Base M_Payload M_Url M_Cloud S_Url S_Cloud L_Url L_Cloud L_Cloud2 L_Cloud3 P_Cloud.

Lemma repeated_l i l2 : forall l m0 m before key, is_map m0 -> is_map m ->
  Forall item_ok l -> fresh_bare m0 before l ->
  (forall k, keyed m k <-> keyed m0 k \/ In k (map it_key before)) ->
  item_ok i -> it_raw_values i = [] -> keyed m0 (it_key i) \/ In (it_key i) (map it_key (before ++ l)) ->
  fst (parse_to_map (items_text (l ++ i :: l2)) true [] key m) = Throw InvalidArgument.
Proof.
  induction l as [|j l IH]; intros m0 m before key Hm0 Hm Hok Hfr Hk Hi Hr Hin.
  - rewrite app_nil_r in Hin. cbn [List.app].
    destruct Hi as (Hd & N1 & N2 & _). apply decode_denotes in Hd.
    destruct (mfind (it_key i) m) as [s|] eqn:F; [|apply mfind_none in F; [|apply Hm]; destruct F; now apply Hk].
    destruct l2 as [|x l2].
    + cbn [items_text map separated]. unfold item_text. rewrite Hr, app_nil_r.
      rewrite <- (app_nil_r (it_raw_key i)), ptm_key_chars by assumption. cbn [List.app parse_to_map].
      rewrite Hd, F. reflexivity.
    + change (items_text (i :: x :: l2)) with (item_text i ++ 38 :: items_text (x :: l2)).
      unfold item_text at 1. rewrite Hr, app_nil_r, ptm_key_chars by assumption. cbn [List.app parse_to_map].
      change (38 =? 61) with false. cbv iota. rewrite Hd. cbn. rewrite F. reflexivity.
  - inversion Hok as [|? ? Hj Hl]; subst. inversion Hfr as [|? ? ? Hb Hfr']; subst.
    assert (Hbare : it_raw_values j = [] -> ~ keyed m (it_key j)).
    { intros E. destruct (Hb E) as [H1 H2]. rewrite Hk. tauto. }
    destruct (exec_item_spec m j Hm) as (E1 & E2 & E3).
    { intros E. now apply Hbare, item_bare. }
    destruct (item_step j m key Hj) as [_ S2].
    { intros E. apply mfind_none; [apply Hm|now apply Hbare]. }
    assert (X : items_text ((j :: l) ++ i :: l2) = item_text j ++ 38 :: items_text (l ++ i :: l2)).
    { destruct l; reflexivity. }
    rewrite X, S2. apply (IH m0 (exec_item m j) (before ++ [j])); auto.
    + intros k. rewrite E2, Hk, map_app, in_app_iff. cbn. intuition.
    + now rewrite <- app_assoc.
Qed.

(** A key without values that the cloud has already, or that has been mentioned
    before in the text, is refused, wherever it stands and whatever follows. *)
Theorem C26_repeated : forall m l i l2, is_map m -> Forall item_ok l -> fresh_bare m [] l ->
  item_ok i -> it_raw_values i = [] -> keyed m (it_key i) \/ In (it_key i) (map it_key l) ->
  fst (parse_text_to_map (items_text (l ++ i :: l2)) m) = Throw InvalidArgument.
Proof.
  intros m l i l2 Hm Hok Hfr Hi Hr Hin. apply (repeated_l i l2 l m m [] []); auto.
  intros k. cbn. tauto.
Qed.
Print Assumptions C26_repeated.

(** Merging such a text fails, and so does making a cloud of it. *)
Theorem C26_merge_repeated : forall c l i l2, Forall item_ok l -> fresh_bare [] [] l ->
  item_ok i -> it_raw_values i = [] -> In (it_key i) (map it_key l) ->
  cloud_apply c (CMerge (items_text (l ++ i :: l2))) = (Throw InvalidArgument, c) /\
  cloud_from_text (tc_owner c) (items_text (l ++ i :: l2)) = Throw InvalidArgument.
Proof.
  intros c l i l2 Hok Hfr Hi Hr Hin.
  pose proof (C26_repeated [] l i l2 nil_map Hok Hfr Hi Hr (or_intror Hin)) as E.
  unfold cloud_apply, cloud_from_text. destruct (parse_text_to_map (items_text (l ++ i :: l2)) []) as [r M].
  cbn [fst] in E. subst r. split; reflexivity.
Qed.
Print Assumptions C26_merge_repeated.
Example C26_repeated_nontrivial :
  items_text [mkItem (B "k") [B "x"] (B "k") [B "x"]; mkItem (B "k") [] (B "k") []; mkItem (B "z") [] (B "z") []] = B "k=x&k&z" /\
  parse_text_to_map (B "k=x&k&z") [] = (Throw InvalidArgument, [(B "k", [B "x"])]) /\
  parse_text_to_map (B "k&k=x") [] = (Ok tt, [(B "k", [B "x"])]).
Proof. vm_compute. auto. Qed.
