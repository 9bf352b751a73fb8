(** * C14, C25, C26, C49: tag clouds. *)
From Verif Require Import Base M_Cloud S_Cloud L_Cloud L_Cloud2 L_Cloud3.

(** ** C25 *)

(** C25: a cloud of NUL-free strings survives a write and re-read, and is written
    with the size it declares. *)
Theorem C25_roundtrip : forall c, is_map (tc_tags c) ->
  ~ In 0 (tc_owner c) -> plain_map (tc_tags c) -> fits_map (tc_tags c) ->
  parse_cloud (write_cloud c) = Ok c.
Proof. exact cloud_roundtrip. Qed.
Print Assumptions C25_roundtrip.
Example C25_roundtrip_nontrivial :
  let c := mkCloud (B "me") [(B "genre", [B "jazz"; B "soul"]); (B "sub", [])] in
  is_map (tc_tags c) /\ ~ In 0 (tc_owner c) /\ plain_map (tc_tags c) /\ fits_map (tc_tags c).
Proof.
  cbv zeta.
  assert (P : forall s, forallb (fun b => negb (b =? 0) && (b <? 256)) s = true -> plain s).
  { intros s H. rewrite forallb_forall in H. split.
    - apply Forall_forall. intros x Hx. apply H in Hx. unfold is_byte. lia.
    - intros Hx. apply H in Hx. lia. }
  split; [split|split; [|split]].
  - repeat constructor.
  - repeat constructor.
  - cbn. intuition discriminate.
  - constructor; [|constructor; [|constructor]]; (split; [apply P; reflexivity|]); cbn [snd].
    + constructor; [apply P; reflexivity|]. constructor; [apply P; reflexivity|constructor].
    + constructor.
  - repeat constructor.
Qed.

Theorem C25_size : forall c, len (write_cloud c) = size_cloud c.
Proof. exact write_cloud_len. Qed.
Print Assumptions C25_size.

(** C25: whatever is done to a cloud, its tags are a map of sets (so the
    hypothesis above is met by every state). *)
Theorem C25_histories_are_maps : forall ops c, is_map (tc_tags c) ->
  is_map (tc_tags (fold_left (fun c op => snd (cloud_apply c op)) ops c)).
Proof. exact history_map. Qed.
Print Assumptions C25_histories_are_maps.

(** C25 fails for keys or values with a NUL, which merging and the constructor
    from text let in. *)
Theorem C25_nul_refuted : exists (ops : list cloud_op) (c : cloud),
  c = fold_left (fun c op => snd (cloud_apply c op)) ops (mkCloud [] []) /\
  parse_cloud (write_cloud c) <> Ok c.
Proof. exact nul_key_refuted. Qed.
Print Assumptions C25_nul_refuted.

(** C14 for tag clouds: what the parser accepts, however odd the bytes, it
    accepts again after a rewrite, with the same result. *)
Theorem C14_tag_cloud : forall l c, is_bytes l -> len l < 2 ^ 32 -> parse_cloud l = Ok c ->
  parse_cloud (write_cloud c) = Ok c.
Proof. exact cloud_stable. Qed.
Print Assumptions C14_tag_cloud.
Example C14_tag_cloud_nontrivial :
  let l := [1; 0] ++ B "k" ++ [0; 0; 0; 0; 4] ++ B "b" ++ [0] ++ B "a" ++ [0] in
  parse_cloud l = Ok (mkCloud [] [(B "k", [B "a"; B "b"])]) /\
  write_cloud (mkCloud [] [(B "k", [B "a"; B "b"])]) <> l.
Proof. split; [reflexivity|discriminate]. Qed.

(** C20 for tag clouds: parsing terminates. *)
Theorem C20_tag_cloud_terminates : forall l, parse_cloud l <> NonTerm.
Proof. exact parse_cloud_term. Qed.
Print Assumptions C20_tag_cloud_terminates.

(** ** C26 *)

(** C26: the text form of a non-empty cloud denotes the cloud. *)
Theorem C26_text_roundtrip_partial : forall m, is_map m -> bytes_map m -> m <> [] ->
  parse_text_to_map (urlencoded m) [] = (Ok tt, m).
Proof. exact text_roundtrip_map. Qed.
Print Assumptions C26_text_roundtrip_partial.
Example C26_text_roundtrip_nontrivial :
  urlencoded [(B "a&b", [B "x,y"; B "z"]); (B "c", [])] = B "a%26b=x%2cy,z&c".
Proof. reflexivity. Qed.

(** C26 fails for the empty cloud: its text form is read as the key "". *)
Theorem C26_text_roundtrip_refuted : exists m, is_map m /\ bytes_map m /\
  parse_text_to_map (urlencoded m) [] <> (Ok tt, m).
Proof. exact empty_text_refuted. Qed.
Print Assumptions C26_text_roundtrip_refuted.

(** C26: any text that is a list of items, percent-encoded in any way, adds
    exactly the keys and pairs the items denote, and loses nothing. *)
Theorem C26_text_meaning : forall l m, is_map m -> l <> [] -> Forall item_ok l -> fresh_bare m [] l ->
  exists m', parse_text_to_map (items_text l) m = (Ok tt, m') /\ is_map m' /\
    (forall k, keyed m' k <-> keyed m k \/ In k (map it_key l)) /\
    (forall k v, paired m' k v <->
       paired m k v \/ exists i, In i l /\ it_key i = k /\ In v (it_values i)).
Proof. exact parse_text_spec. Qed.
Print Assumptions C26_text_meaning.

(** C26: merging an items text is union. *)
Theorem C26_merge_items : forall c l, is_map (tc_tags c) -> l <> [] -> Forall item_ok l ->
  fresh_bare [] [] l ->
  exists c', cloud_apply c (CMerge (items_text l)) = (Ok tt, c') /\
    tc_owner c' = tc_owner c /\ is_map (tc_tags c') /\
    (forall k, keyed (tc_tags c') k <-> keyed (tc_tags c) k \/ In k (map it_key l)) /\
    (forall k v, paired (tc_tags c') k v <->
       paired (tc_tags c) k v \/ exists i, In i l /\ it_key i = k /\ In v (it_values i)).
Proof. exact merge_items. Qed.
Print Assumptions C26_merge_items.
Example C26_merge_items_nontrivial :
  let i := mkItem (B "k") [B "%20"; B "x"] (B "k") [B " "; B "x"] in
  item_ok i /\ item_text i = B "k=%20,x" /\ fresh_bare [] [] [i].
Proof.
  cbv zeta. split; [|split; [reflexivity|constructor; [discriminate|constructor]]].
  split; [change (S_Url.denotes any [107] [107]); apply S_Url.den_lit; [exact I|discriminate|constructor]|].
  split; [cbn; intuition discriminate|]. split; [cbn; intuition discriminate|]. split.
  - constructor; [|constructor; [|constructor]].
    + change (S_Url.denotes any [37; 50; 48] [16 * 2 + 0]).
      apply S_Url.den_hex; [left; reflexivity..|constructor].
    + change (S_Url.denotes any [120] [120]). apply S_Url.den_lit; [exact I|discriminate|constructor].
  - repeat constructor; cbn; intuition discriminate.
Qed.

(** C26: merging the text form of another cloud is union. *)
Theorem C26_merge_cloud : forall c m, is_map (tc_tags c) -> is_map m -> bytes_map m -> m <> [] ->
  exists c', cloud_apply c (CMerge (urlencoded m)) = (Ok tt, c') /\
    tc_owner c' = tc_owner c /\ is_map (tc_tags c') /\
    (forall k, keyed (tc_tags c') k <-> keyed (tc_tags c) k \/ keyed m k) /\
    (forall k v, paired (tc_tags c') k v <-> paired (tc_tags c) k v \/ paired m k v).
Proof. exact merge_cloud. Qed.
Print Assumptions C26_merge_cloud.

(** C26: queries and single additions. *)
Theorem C26_has_key : forall c k, is_map (tc_tags c) -> (has_key c k = true <-> keyed (tc_tags c) k).
Proof. exact has_key_spec. Qed.
Print Assumptions C26_has_key.

Theorem C26_has_value : forall c k v, is_map (tc_tags c) ->
  (has_value c k v = true <-> paired (tc_tags c) k v).
Proof. exact has_value_spec. Qed.
Print Assumptions C26_has_value.

Theorem C26_add_value : forall c k v, is_map (tc_tags c) ->
  let c' := snd (cloud_apply c (CAddValue k v)) in
  tc_owner c' = tc_owner c /\
  (forall x, keyed (tc_tags c') x <-> x = k \/ keyed (tc_tags c) x) /\
  (forall x w, paired (tc_tags c') x w <-> (x = k /\ w = v) \/ paired (tc_tags c) x w).
Proof. exact add_spec. Qed.
Print Assumptions C26_add_value.

Theorem C26_add_key : forall c k, is_map (tc_tags c) ->
  let c' := snd (cloud_apply c (CAddKey k)) in
  tc_owner c' = tc_owner c /\
  (forall x, keyed (tc_tags c') x <-> x = k \/ keyed (tc_tags c) x) /\
  (forall x w, paired (tc_tags c') x w <-> paired (tc_tags c) x w).
Proof. exact add_key_spec. Qed.
Print Assumptions C26_add_key.

(** ** C49 *)

(** C49: a merge that fails leaves the cloud as it was. *)
Theorem C49_merge_failure_partial : forall c text r c',
  cloud_apply c (CMerge text) = (r, c') -> r <> Ok tt -> c' = c.
Proof. exact merge_failure. Qed.
Print Assumptions C49_merge_failure_partial.
Example C49_merge_failure_nontrivial : fst (cloud_apply (mkCloud [] []) (CMerge (B "a&a"))) <> Ok tt.
Proof. discriminate. Qed.

(** C49 fails for updating: the old tags are gone before the text is parsed. *)
Theorem C49_update_failure_refuted : exists c text r c', cloud_apply c (CUpdate text) = (r, c') /\
  r = Throw InvalidArgument /\ keyed (tc_tags c) (B "mood") /\ ~ keyed (tc_tags c') (B "mood").
Proof. exact update_failure_refuted. Qed.
Print Assumptions C49_update_failure_refuted.
