(** * Lemmas: the tags a file begins with; writing in place; saving. *)
From Verif Require Import Base M_Ints M_Unsync M_Stream M_Payload M_Frame M_Tag22 M_Tag23 M_Tag24 M_Read M_Fs M_Tagset
  S_Ints S_Stream S_Tag S_Tag23 S_Tag24 S_Read S_Tagset L_Stream L_Id3v1c L_Read L_Fs L_Tagset L_Tagset2 L_Tagset3.

(** ** Existing tags *)
Lemma tags_many data l : forall pos, tags_from data pos l -> pos + 10 * len l <= len data \/ l = [].
Proof.
  induction l as [|h l IH]; intros pos H; [right; reflexivity|]. left.
  destruct H as (EP & HH & HT). apply header_fits in HH. rewrite len_cons. destruct (IH _ HT) as [C| ->]; [lia|].
  change (len (@nil head)) with 0. lia.
Qed.
Lemma tags_fuel data l : tags_from data 0 l -> (List.length l < S (List.length data))%nat.
Proof. intros H. destruct (tags_many data l 0 H) as [C| ->]; [unfold len in C; lia|cbn; lia]. Qed.

Lemma extant_loop_ok data e l : forall pos cb fuel, tags_from data pos l -> (List.length l < fuel)%nat ->
  fst (extant_loop fuel cb (mkIs data pos e 0)) = Ok (cb + (tags_end pos l - pos)).
Proof.
  induction l as [|h l IH]; intros pos cb fuel HT Hf; destruct fuel as [|fuel]; try lia; cbn [extant_loop].
  - unfold sbind. rewrite looking_at_nothing by exact HT. cbn. f_equal. lia.
  - destruct HT as (EP & HH & HT). unfold sbind at 1. rewrite (looking_at_header _ _ _ _ _ _ _ _ HH). cbv iota.
    unfold sbind at 1. rewrite seekg_cur_good by reflexivity. cbn [s_pos s_data s_exc i_size].
    rewrite (IH _ _ fuel HT) by (cbn in Hf; lia). f_equal. cbn [tags_end].
    pose proof (tags_end_ge l (pos + 10 + hd_size h)). lia.
Qed.
Lemma extant_ok data l : tags_from data 0 l -> extant data = Ok (tags_end 0 l).
Proof.
  intros H. unfold extant. rewrite (extant_loop_ok data all_bits l) by (auto using tags_fuel). f_equal. lia.
Qed.

Lemma skip_loop_ok data e l : forall pos fuel, tags_from data pos l -> (List.length l < fuel)%nat ->
  skip_loop fuel (mkIs data pos e 0) = (Ok tt, mkIs data (tags_end pos l) e 0).
Proof.
  induction l as [|h l IH]; intros pos fuel HT Hf; destruct fuel as [|fuel]; try lia; cbn [skip_loop].
  - unfold sbind. rewrite looking_at_nothing by exact HT. reflexivity.
  - destruct HT as (EP & HH & HT). unfold sbind at 1. rewrite (looking_at_header _ _ _ _ _ _ _ _ HH). cbv iota.
    unfold sbind at 1. rewrite seekg_cur_good by reflexivity. cbn [s_pos s_data s_exc i_size tags_end].
    replace (pos + (10 + hd_size h)) with (pos + 10 + hd_size h) by lia. apply IH; [exact HT|]. cbn in Hf. lia.
Qed.
Lemma rest_of_ok data l : tags_from data 0 l ->
  rest_of data = if tags_end 0 l <=? len data then Ok (dropN (tags_end 0 l) data) else Throw LogicError.
Proof.
  intros H. unfold rest_of. unfold sbind at 1. rewrite (skip_loop_ok data all_bits l) by (auto using tags_fuel).
  set (k := tags_end 0 l). clearbody k.
  unfold sbind at 1. rewrite tellg_good by reflexivity. cbn [s_pos].
  unfold sbind at 1. rewrite seekg_end_good by (reflexivity || cbn [s_data]; lia). cbn [s_data s_exc].
  unfold sbind at 1. rewrite tellg_good by reflexivity. cbn [s_pos]. rewrite N.sub_0_r.
  unfold sbind at 1. rewrite seekg_good by reflexivity. cbn [s_data s_exc].
  destruct (N.eqb_spec k (len data)) as [->|NE].
  - rewrite N.leb_refl. cbn. f_equal. symmetry. rewrite dropN_skipn. unfold len. rewrite Nat2N.id. apply skipn_all.
  - destruct (N.ltb_spec (len data) k) as [L|L].
    + destruct (N.leb_spec k (len data)); [lia|]. reflexivity.
    + destruct (N.leb_spec k (len data)); [|lia]. 
      assert (E : slice k (len data - k) data = dropN k data).
      { unfold slice. rewrite takeN_firstn. apply firstn_all2.
        assert (LL : len (dropN k data) = len data - k) by apply len_dropN. unfold len in LL at 1. lia. }
      rewrite sread_good; cbn [s_data s_pos s_exc fst]; [now rewrite E|reflexivity|]. rewrite E. apply len_dropN.
Qed.

Lemma tags_exist data : exists l, tags_from data 0 l.
Proof.
  assert (G : forall n pos, (N.to_nat (len data - pos) < n)%nat -> exists l, tags_from data pos l).
  { induction n as [|n IH]; intros pos Hn; [lia|].
    destruct (looking_at_exact data pos 0 true) as [(v & r & f & sz & HH & _)|(NO & _)].
    - pose proof (header_fits _ _ _ _ _ _ HH) as L. destruct (IH (pos + 10 + sz)) as (l & Hl); [lia|].
      exists (mkHead pos v r f sz :: l). cbn. auto.
    - exists []. exact NO. }
  apply (G (S (N.to_nat (len data)))). lia.
Qed.

(** ** Overlays *)
Lemma overlay_le data w : len w <= len data -> overlay data w = w ++ dropN (len w) data.
Proof.
  intros H. unfold overlay. rewrite takeN_firstn. apply firstn_all2. unfold len in *. rewrite app_length, dropN_skipn, skipn_length. lia.
Qed.

(** ** Emplacing *)
Definition refused {A} (r : outcome A) : Prop := match r with Ok _ => False | _ => True end.

Lemma fbind_lift {A X} (o : outcome A) (f : A -> FS X) fs :
  fbind (flift o) f fs = match o with Ok a => f a fs | Throw e => ([], (Throw e, fs)) | UB u => ([], (UB u, fs)) | NonTerm => ([], (NonTerm, fs)) end.
Proof. unfold fbind, flift. destruct o; try reflexivity. now destruct (f a fs). Qed.

Lemma len_pos_cons {A} (l : list A) : 0 < len l -> exists x r, l = x :: r.
Proof. destruct l; [cbn; lia|eauto]. Qed.

Lemma emplace_cases z e p ts m fs data l n pd ts1 : let k := resolve (e_cwd e) p in
  find_node k fs = Some (File data) -> tags_from data 0 l -> Forall sound_tag ts ->
  sizes z m ts = Ok (n, pd, ts1) -> n < 2 ^ 64 ->
  tags_end 0 l < 2 ^ 28 -> tags_end 0 l <= len data ->
  if (tags_end 0 l =? n) && (0 <? len data) then
    exists w, emit_all z m ts1 = (w, Ok ts1) /\ fst (emit_all z m ts) = w /\
      len w <= tags_end 0 l /\ (Forall simple_tag ts -> len w = tags_end 0 l) /\
      replace_tagset_emplace z e p ts m fs =
        ([set_node k (File (w ++ dropN (len w) data)) fs], (Ok ts1, set_node k (File (w ++ dropN (len w) data)) fs))
  else exists x, replace_tagset_emplace z e p ts m fs = ([], (Throw x, fs)).
Proof.
  intros k Hk Hl Hs Hz Hn HT HL.
  destruct (sizes_settled z m ts Hs n pd ts1 Hz) as (S1 & En & Ep & Hsame & Hem & _).
  assert (Hw : wrap64 n = n) by (unfold wrap64; apply N.mod_small; exact Hn).
  assert (E0 : replace_tagset_emplace z e p ts m fs =
    if negb (tags_end 0 l =? n) then ([], (Throw MismatchSize, fs)) else
    match data with [] => ([], (Throw IosFailure, fs)) | _ =>
     (let '(w, o) := emit_all z m ts1 in run _ <- change (set_node k (File (overlay data w)));; flift o) fs end).
  { unfold replace_tagset_emplace. fold k. cbv zeta. unfold tagset_size. rewrite Hk, (extant_ok data l Hl).
    rewrite fbind_lift. unfold tagset_sizes. rewrite Hz. cbn [bind]. rewrite Hw. rewrite fbind_lift.
    destruct (negb _); [reflexivity|]. destruct data; reflexivity. }
  rewrite E0. destruct (N.eqb_spec (tags_end 0 l) n) as [E|E]; cbn [negb andb]; [|eauto].
  destruct data as [|d data']; [change (0 <? len (@nil N)) with false; cbv iota; eauto|].
  assert (Hpos : 0 <? len (d :: data') = true) by (rewrite len_cons; apply N.ltb_lt; lia). rewrite Hpos.
  destruct (emit_all_settled z m ts1 S1) as (w & Ew & Lw & Lw2); [lia|]. exists w.
  rewrite Ew. split; [reflexivity|]. split; [now rewrite Hem, Ew|]. split; [lia|]. split.
  - intros HF. rewrite E, En. apply Lw2. apply (same_all simple_tag ts ts1); [exact simple_same|assumption..].
  - unfold fbind, change, flift. rewrite overlay_le by lia. reflexivity.
Qed.

(** ** Saving *)

Lemma wrap_sub a b : b <= a -> a < 2 ^ 64 -> wrap64 (a + 2 ^ 64 - wrap64 b) = a - b.
Proof.
  intros H1 H2. unfold wrap64. rewrite (N.mod_small b) by lia.
  replace (a + 2 ^ 64 - b) with ((a - b) + 1 * 2 ^ 64) by lia. rewrite N.mod_add by discriminate. apply N.mod_small. lia.
Qed.

Lemma settled_padding_le z m ts : total_padding ts <= total_size z m ts.
Proof.
  induction ts as [|t r IH]; [cbn; lia|]. cbn [total_size total_padding fold_right].
  unfold total_size, total_padding in *. unfold full_size at 1.
  assert (any_padding t <= mult t * any_padding t) by (destruct t; cbn [mult]; lia). lia.
Qed.

Lemma emplace_settled z e p ts m fs data l r st fs' : let k := resolve (e_cwd e) p in
  find_node k fs = Some (File data) -> tags_from data 0 l -> tags_end 0 l < 2 ^ 28 -> tags_end 0 l <= len data ->
  Forall (Settled z m) ts -> Forall simple_tag ts -> total_size z m ts < 2 ^ 64 ->
  replace_tagset_emplace z e p ts m fs = (st, (Ok r, fs')) ->
  r = ts /\ exists w, emit_all z m ts = (w, Ok ts) /\ len w = tags_end 0 l /\
    fs' = set_node k (File (w ++ dropN (tags_end 0 l) data)) fs.
Proof.
  intros k Hk Hl HT HL HS HP HN H.
  pose proof (emplace_cases z e p ts m fs data l _ _ _ Hk Hl (simple_sounds _ HP) (sizes_stable z m ts HS) HN HT HL) as C.
  destruct ((tags_end 0 l =? total_size z m ts) && (0 <? len data)).
  - destruct C as (w & E1 & E2 & L1 & L2 & E3). rewrite E3 in H. injection H as _ <- <-. split; [reflexivity|].
    exists w. split; [exact E1|]. specialize (L2 HP). split; [exact L2|]. now rewrite L2.
  - destruct C as (x & E). rewrite E in H. discriminate.
Qed.

(** What an emplacing save leaves. *)
Definition saved z (m : apply_unsync) k fs data l ts ts' fs' : Prop :=
  exists w, emit_all z m ts' = (w, Ok ts') /\ Forall2 (fun t t' => exists t0, same_but_caches t t0 /\ repadded t0 t') ts ts' /\
    fs' = set_node k (File (w ++ dropN (tags_end 0 l) data)) fs.

Lemma adjusted_emplace z e p m fs data l ts ts1 n pd target ts2 st r fs' : let k := resolve (e_cwd e) p in
  find_node k fs = Some (File data) -> tags_from data 0 l -> tags_end 0 l < 2 ^ 28 -> tags_end 0 l <= len data ->
  Forall simple_tag ts -> Forall (fun t => any_padding t < 2 ^ 62) ts -> sizes z m ts = Ok (n, pd, ts1) -> n < 2 ^ 63 -> target < 2 ^ 63 ->
  adjust_padding_to ts1 target n = (ts2, Ok tt) -> ~ wraps ts1 target n ->
  replace_tagset_emplace z e p ts2 m fs = (st, (Ok r, fs')) ->
  saved z m k fs data l ts r fs'.
Proof.
  intros k Hk Hl HT HL HS HP Hz Hn Htg Ha Hw H.
  destruct (sizes_settled z m ts (simple_sounds _ HS) n pd ts1 Hz) as (S1 & En & Ep & Hsame & _).
  assert (HP1 : Forall padded ts1).
  { apply (same_all padded ts ts1); [|assumption|].
    - intros a b Hab. now rewrite (pad_same a b Hab).
    - eapply Forall_impl; [|exact HP]. cbn. intros. lia. }
  assert (HS1 : Forall simple_tag ts1) by (apply (same_all simple_tag ts ts1); [exact simple_same|assumption..]).
  destruct (adjust_exact ts1 target n ts2 Htg Hn HP1 Ha Hw) as [R1 R2].
  destruct (repadded_total z m ts1 ts2 R1 S1 HS1) as (S2 & P2 & E).
  destruct (emplace_settled z e p ts2 m fs data l r st fs' Hk Hl HT HL S2 P2) as (-> & w & E1 & E2 & E3); [lia|exact H|].
  exists w. split; [exact E1|]. split; [|exact E3]. clear - Hsame R1. revert ts2 R1.
  induction Hsame as [|a b ra rb Hab _ IH]; intros ts2 R; inversion R; subst; constructor; eauto.
Qed.
