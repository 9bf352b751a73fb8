(** * Lemmas: reading tags of any version. *)
From Verif Require Import Base M_Ints M_Stream S_Ints S_Stream L_Ints L_Stream M_Payload M_Frame M_Tag22 M_Tag23 M_Tag24
  L_Tag23d M_Read S_Read.

Lemma split_at pos n (data : bytes) : pos + n <= len data ->
  exists pre post, data = pre ++ slice pos n data ++ post /\ len pre = pos /\ len (slice pos n data) = n.
Proof.
  intros H. exists (takeN pos data), (dropN n (dropN pos data)). split; [|split].
  - unfold slice. rewrite takeN_dropN. symmetry. apply takeN_dropN.
  - rewrite len_takeN. lia.
  - unfold slice. rewrite len_takeN, len_dropN. lia.
Qed.

Lemma parse_stream_at {T} (P : bytes -> outcome T) data pos n e : pos + n <= len data ->
  (forall t, P (slice pos n data) = Ok t ->
     parse_stream P n (mkIs data pos e 0) = (Ok t, mkIs data (pos + n) e 0)) /\
  (forall x, P (slice pos n data) = Throw x ->
     parse_stream P n (mkIs data pos e 0) = (Throw x, mkIs data pos e 0)) /\
  (forall u, P (slice pos n data) = UB u ->
     fst (parse_stream P n (mkIs data pos e 0)) = UB u) /\
  (P (slice pos n data) = NonTerm -> fst (parse_stream P n (mkIs data pos e 0)) = NonTerm).
Proof.
  intros H. destruct (split_at pos n data H) as (pre & post & ED & EP & EL).
  set (b := slice pos n data) in *. clearbody b. rewrite ED, <- EP, <- EL.
  assert (ES : slice (len pre) (len b) (pre ++ b ++ post) = b).
  { unfold slice. rewrite dropN_app_exact by reflexivity. now apply takeN_app_exact. }
  split; [|split; [|split]].
  - intros t. apply parse_stream_ok.
  - intros x. apply parse_stream_throw.
  - intros u HU. unfold parse_stream, sbind, get_exc. cbn [s_exc].
    rewrite set_exc_good by reflexivity. cbn [s_data s_pos].
    rewrite tellg_good by reflexivity. cbn [s_data s_pos s_exc]. unfold restoring.
    rewrite sread_good by (reflexivity || (cbn [s_data s_pos]; now rewrite ES)).
    cbn [s_data s_pos s_exc]. rewrite ES. unfold slift. rewrite HU. reflexivity.
  - intros HU. unfold parse_stream, sbind, get_exc. cbn [s_exc].
    rewrite set_exc_good by reflexivity. cbn [s_data s_pos].
    rewrite tellg_good by reflexivity. cbn [s_data s_pos s_exc]. unfold restoring.
    rewrite sread_good by (reflexivity || (cbn [s_data s_pos]; now rewrite ES)).
    cbn [s_data s_pos s_exc]. rewrite ES. unfold slift. rewrite HU. reflexivity.
Qed.

(** One constructor, any outcome. *)
Lemma read_version_at z passes v r f n data pos e : pos + n <= len data ->
  fst (read_version z passes (mkInfo v r f n) (mkIs data pos e 0)) = parse_any z passes v f (slice pos n data) /\
  (forall t, parse_any z passes v f (slice pos n data) = Ok t ->
     snd (read_version z passes (mkInfo v r f n) (mkIs data pos e 0)) = mkIs data (pos + n) e 0).
Proof.
  intros H. unfold read_version, parse_any. cbn [i_version].
  destruct (2 =? v); [|destruct (3 =? v); [|destruct (4 =? v)]].
  - unfold read22. cbn [i_flags i_size].
    destruct (parse_stream_at (parse_body22 f) data pos n e H) as (P1 & P2 & P3 & P4). unfold sbind.
    destruct (parse_body22 f (slice pos n data)) eqn:E.
    + rewrite (P1 _ eq_refl). split; [reflexivity|]. reflexivity.
    + rewrite (P2 _ eq_refl). split; [reflexivity|discriminate].
    + specialize (P3 _ eq_refl). destruct (parse_stream _ _ _) as [o s']. cbn [fst] in P3. subst o. split; [reflexivity|discriminate].
    + specialize (P4 eq_refl). destruct (parse_stream _ _ _) as [o s']. cbn [fst] in P4. subst o. split; [reflexivity|discriminate].
  - unfold read23. cbn [i_flags i_size].
    destruct (parse_stream_at (parse_body23 z passes f) data pos n e H) as (P1 & P2 & P3 & P4). unfold sbind.
    destruct (parse_body23 z passes f (slice pos n data)) eqn:E.
    + rewrite (P1 _ eq_refl). split; [reflexivity|]. reflexivity.
    + rewrite (P2 _ eq_refl). split; [reflexivity|discriminate].
    + specialize (P3 _ eq_refl). destruct (parse_stream _ _ _) as [o s']. cbn [fst] in P3. subst o. split; [reflexivity|discriminate].
    + specialize (P4 eq_refl). destruct (parse_stream _ _ _) as [o s']. cbn [fst] in P4. subst o. split; [reflexivity|discriminate].
  - unfold read24. cbn [i_flags i_size].
    destruct (parse_stream_at (parse_body24 z passes f) data pos n e H) as (P1 & P2 & P3 & P4). unfold sbind.
    destruct (parse_body24 z passes f (slice pos n data)) eqn:E.
    + rewrite (P1 _ eq_refl). split; [reflexivity|]. reflexivity.
    + rewrite (P2 _ eq_refl). split; [reflexivity|discriminate].
    + specialize (P3 _ eq_refl). destruct (parse_stream _ _ _) as [o s']. cbn [fst] in P3. subst o. split; [reflexivity|discriminate].
    + specialize (P4 eq_refl). destruct (parse_stream _ _ _) as [o s']. cbn [fst] in P4. subst o. split; [reflexivity|discriminate].
  - split; [reflexivity|discriminate].
Qed.

Lemma read_version_ok z passes v r f n data pos e t : pos + n <= len data ->
  parse_any z passes v f (slice pos n data) = Ok t ->
  read_version z passes (mkInfo v r f n) (mkIs data pos e 0) = (Ok t, mkIs data (pos + n) e 0).
Proof.
  intros H E. destruct (read_version_at z passes v r f n data pos e H) as (R1 & R2).
  specialize (R2 _ E). rewrite E in R1. destruct (read_version _ _ _ _) as [o s']. cbn in R1, R2. now subst.
Qed.

Lemma header_fits data pos v r f n : id3v2_header_at data pos v r f n -> pos + 10 <= len data.
Proof.
  intros (z0 & z1 & z2 & z3 & rest & E & _).
  assert (L : len (dropN pos data) = len (B "ID3" ++ [v; r; f; z0; z1; z2; z3] ++ rest)) by now rewrite E.
  rewrite len_dropN, !len_app in L. change (len (B "ID3")) with 3 in L. unfold len in L at 2. cbn [length] in L. lia.
Qed.

(** Beyond the end: an I/O failure, unless there is nothing to read. *)
Lemma read_version_short z passes v r f n data pos e t s' : len data < pos + n -> pos <= len data ->
  read_version z passes (mkInfo v r f n) (mkIs data pos e 0) <> (Ok t, s').
Proof.
  intros H HP. assert (HL : len (slice pos n data) <> n) by (unfold slice; rewrite len_takeN, len_dropN; lia).
  unfold read_version. cbn [i_version]. unfold sbind.
  destruct (2 =? v); [|destruct (3 =? v); [|destruct (4 =? v)]].
  - unfold read22. cbn [i_flags i_size]. rewrite parse_stream_short by exact HL. discriminate.
  - unfold read23. cbn [i_flags i_size]. rewrite parse_stream_short by exact HL. discriminate.
  - unfold read24. cbn [i_flags i_size]. rewrite parse_stream_short by exact HL. discriminate.
  - discriminate.
Qed.

Lemma looking_at_header data pos e restore v r f sz : id3v2_header_at data pos v r f sz ->
  looking_at_id3v2 restore (mkIs data pos e 0)
  = (Ok (Some (mkInfo v r f sz)), mkIs data (if restore then pos else pos + 10) e 0).
Proof.
  intros H. destruct (looking_at_exact data pos e restore) as [(v' & r' & f' & sz' & H' & E)|(NO & _)].
  - destruct (header_at_unique _ _ _ _ _ _ _ _ _ _ H H') as (-> & -> & -> & ->). exact E.
  - elim (NO _ _ _ _ H).
Qed.
Lemma looking_at_nothing data pos e restore : (forall v r f sz, ~ id3v2_header_at data pos v r f sz) ->
  looking_at_id3v2 restore (mkIs data pos e 0) = (Ok None, mkIs data pos e 0).
Proof.
  intros H. destruct (looking_at_exact data pos e restore) as [(v' & r' & f' & sz' & H' & E)|(_ & E)]; [|exact E].
  elim (H _ _ _ _ H').
Qed.

Definition good_read z passes data (h : head) t : Prop :=
  parse_any z passes (hd_version h) (hd_flags h) (tag_body data h) = Ok t.

Lemma tags_end_ge l : forall pos, pos <= tags_end pos l.
Proof. induction l as [|h l IH]; intros pos; cbn [tags_end]; [lia|]. specialize (IH (pos + 10 + hd_size h)). lia. Qed.

Lemma tags_long data l : forall pos, tags_from data pos l -> tags_end pos l <= len data ->
  pos + 10 * len l <= len data \/ l = [].
Proof.
  induction l as [|h l IH]; intros pos H HL; [right; reflexivity|]. left.
  destruct H as (EP & HH & HT). cbn [tags_end] in HL. unfold len at 1. cbn [length].
  destruct (IH _ HT HL) as [IH'|IH'].
  - unfold len in IH' at 1. lia.
  - subst l. cbn [length]. apply header_fits in HH. lia.
Qed.

Lemma read_all_loop_ok z passes e data : forall l ts pos fuel,
  tags_from data pos l -> tags_end pos l <= len data -> Forall2 (good_read z passes data) l ts ->
  (length l < fuel)%nat ->
  read_all_loop z passes fuel (mkIs data pos e 0) = (Ok ts, mkIs data (tags_end pos l) e 0).
Proof.
  induction l as [|h l IH]; intros ts pos fuel HT HL HF Hfuel; destruct fuel as [|fuel]; try lia.
  - inversion HF; subst. cbn [read_all_loop tags_end]. unfold sbind, maybe_read_id3v2, sbind.
    rewrite looking_at_nothing by exact HT. reflexivity.
  - inversion HF as [|h' t l' ts' GR HF']; subst. destruct HT as (EP & HH & HT). cbn [tags_end] in *.
    cbn [read_all_loop]. unfold sbind at 1. unfold maybe_read_id3v2. unfold sbind at 1.
    rewrite (looking_at_header _ _ _ _ _ _ _ _ HH). cbv iota. unfold sbind at 1.
    pose proof (tags_end_ge l (pos + 10 + hd_size h)) as GE.
    unfold good_read, tag_body in GR. rewrite EP in GR.
    rewrite (read_version_ok z passes _ _ _ _ _ _ _ t) by (exact GR || lia).
    unfold sret at 1. unfold sbind. rewrite (IH ts' _ fuel HT HL HF') by (cbn [length] in Hfuel; lia). reflexivity.
Qed.

Lemma read_all_ok z passes e data l ts pos :
  tags_from data pos l -> tags_end pos l <= len data -> Forall2 (good_read z passes data) l ts ->
  read_all_id3v2 z passes (mkIs data pos e 0) = (Ok ts, mkIs data (tags_end pos l) e 0).
Proof.
  intros HT HL HF. unfold read_all_id3v2. cbn [s_data]. apply read_all_loop_ok; auto.
  destruct (tags_long _ _ _ HT HL) as [C|C].
  - unfold len in C. lia.
  - subst l. cbn [length]. lia.
Qed.

(** Conversely. *)
Lemma read_all_loop_inv z passes e data : forall fuel pos ts s', pos <= len data ->
  read_all_loop z passes fuel (mkIs data pos e 0) = (Ok ts, s') ->
  exists l, tags_from data pos l /\ tags_end pos l <= len data /\ Forall2 (good_read z passes data) l ts /\
            s' = mkIs data (tags_end pos l) e 0.
Proof.
  induction fuel as [|fuel IH]; intros pos ts s' HP H; [discriminate H|].
  cbn [read_all_loop] in H. unfold sbind at 1 in H. unfold maybe_read_id3v2 in H. unfold sbind at 1 in H.
  destruct (looking_at_exact data pos e false) as [(v & r & f & sz & HH & E)|(NO & E)].
  - rewrite E in H. cbv iota in H. unfold sbind at 1 in H.
    pose proof (header_fits _ _ _ _ _ _ HH) as HFit.
    destruct (N.leb_spec (pos + 10 + sz) (len data)) as [HL|HL].
    + destruct (read_version_at z passes v r f sz data (pos + 10) e HL) as (R1 & R2).
      destruct (read_version z passes (mkInfo v r f sz) (mkIs data (pos + 10) e 0)) as [o s1] eqn:ER.
      cbn [fst snd] in R1, R2. destruct o as [t|x|u|]; try discriminate H.
      symmetry in R1. specialize (R2 _ R1). subst s1. unfold sret at 1 in H. cbv iota beta in H. unfold sbind in H.
      destruct (read_all_loop z passes fuel (mkIs data (pos + 10 + sz) e 0)) as [o2 s2] eqn:EL.
      destruct o2 as [ts2|x|u|]; try discriminate H. unfold sret in H. injection H as <- <-.
      destruct (IH _ _ _ HL EL) as (l & L1 & L2 & L3 & L4).
      exists (mkHead pos v r f sz :: l). cbn [tags_from tags_end hd_at hd_version hd_rev hd_flags hd_size].
      repeat split; auto.
    + exfalso. destruct (read_version z passes (mkInfo v r f sz) (mkIs data (pos + 10) e 0)) as [o s1] eqn:ER.
      destruct o as [t|x|u|]; try discriminate H.
      exact (read_version_short _ _ _ _ _ _ _ _ _ _ _ HL HFit ER).
  - rewrite E in H. unfold sret in H. injection H as <- <-. exists []. cbn [tags_from tags_end]. repeat split; auto.
Qed.

Lemma read_all_iff z passes e data pos ts s' : pos <= len data ->
  (read_all_id3v2 z passes (mkIs data pos e 0) = (Ok ts, s') <->
   exists l, tags_from data pos l /\ tags_end pos l <= len data /\ Forall2 (good_read z passes data) l ts /\
             s' = mkIs data (tags_end pos l) e 0).
Proof.
  intros HP. split.
  - apply read_all_loop_inv. exact HP.
  - intros (l & L1 & L2 & L3 & ->). now apply read_all_ok.
Qed.

(** ** By index *)
Lemma skip_tags_ok data e : forall idx l pos h, tags_from data pos l -> nth_error l idx = Some h ->
  skip_tags idx (mkIs data pos e 0) = (Ok tt, mkIs data (hd_at h) e 0) /\
  id3v2_header_at data (hd_at h) (hd_version h) (hd_rev h) (hd_flags h) (hd_size h).
Proof.
  induction idx as [|idx IH]; intros l pos h HT HN; destruct l as [|h0 l]; try discriminate HN.
  - injection HN as ->. destruct HT as (EP & HH & _). cbn [skip_tags]. rewrite EP. split; [reflexivity|exact HH].
  - destruct HT as (EP & HH & HT). cbn [nth_error] in HN. cbn [skip_tags]. unfold sbind at 1.
    rewrite (looking_at_header _ _ _ _ _ _ _ _ HH). cbv iota. unfold sbind.
    rewrite seekg_cur_good by reflexivity. cbn [s_pos s_data s_exc i_size].
    replace (pos + (hd_size h0 + 10)) with (pos + 10 + hd_size h0) by lia. exact (IH _ _ _ HT HN).
Qed.

Lemma read_idx_offset z passes data e idx l pos h : tags_from data pos l -> nth_error l idx = Some h ->
  read_id3v2 z passes idx (mkIs data pos e 0) =
  read_version z passes (mkInfo (hd_version h) (hd_rev h) (hd_flags h) (hd_size h)) (mkIs data (hd_at h) e 0).
Proof.
  intros HT HN. destruct (skip_tags_ok data e idx l pos h HT HN) as (E & HH).
  unfold read_id3v2. unfold sbind at 1. rewrite E. unfold sbind.
  rewrite (looking_at_header _ _ _ _ _ _ _ _ HH). reflexivity.
Qed.

Lemma skip_tags_absent data e : forall idx l pos, tags_from data pos l -> (length l < idx)%nat ->
  exists s', skip_tags idx (mkIs data pos e 0) = (Throw InvalidArgument, s').
Proof.
  induction idx as [|idx IH]; intros l pos HT HL; [lia|]. cbn [skip_tags]. unfold sbind at 1.
  destruct l as [|h l].
  - rewrite looking_at_nothing by exact HT. eexists. reflexivity.
  - destruct HT as (EP & HH & HT). rewrite (looking_at_header _ _ _ _ _ _ _ _ HH). cbv iota. unfold sbind.
    rewrite seekg_cur_good by reflexivity. cbn [s_pos s_data s_exc i_size].
    replace (pos + (hd_size h + 10)) with (pos + 10 + hd_size h) by lia.
    apply (IH l _ HT). cbn [length] in HL. lia.
Qed.

Lemma skip_tags_all data e : forall l pos, tags_from data pos l ->
  skip_tags (length l) (mkIs data pos e 0) = (Ok tt, mkIs data (tags_end pos l) e 0) /\
  tags_from data (tags_end pos l) [].
Proof.
  induction l as [|h l IH]; intros pos HT; [split; [reflexivity|exact HT]|].
  destruct HT as (EP & HH & HT). cbn [length skip_tags tags_end]. unfold sbind at 1.
  rewrite (looking_at_header _ _ _ _ _ _ _ _ HH). cbv iota. unfold sbind.
  rewrite seekg_cur_good by reflexivity. cbn [s_pos s_data s_exc i_size].
  replace (pos + (hd_size h + 10)) with (pos + 10 + hd_size h) by lia. exact (IH _ HT).
Qed.

Lemma read_idx_absent z passes data e idx l pos : tags_from data pos l -> (length l <= idx)%nat ->
  exists s', read_id3v2 z passes idx (mkIs data pos e 0) = (Throw InvalidArgument, s').
Proof.
  intros HT HL. unfold read_id3v2. unfold sbind at 1.
  destruct (Nat.eq_dec idx (length l)) as [->|NE].
  - destruct (skip_tags_all data e l pos HT) as (E & HE). rewrite E. unfold sbind.
    rewrite looking_at_nothing by exact HE. eexists. reflexivity.
  - destruct (skip_tags_absent data e idx l pos HT ltac:(lia)) as (s' & E). rewrite E. eexists. reflexivity.
Qed.

(** What is then taken for the tag's content. *)
Lemma slice_header data pos v r f n k : id3v2_header_at data pos v r f n -> 10 <= k ->
  exists z0 z1 z2 z3 rest, slice pos k data = [73; 68; 51; v; r; f; z0; z1; z2; z3] ++ rest /\
    Forall (fun z => z < 128) [z0; z1; z2; z3] /\ n = positional 128 [z0; z1; z2; z3].
Proof.
  intros (z0 & z1 & z2 & z3 & rest & E & _ & _ & HZ & HN) HK. unfold slice. rewrite E.
  exists z0, z1, z2, z3, (takeN (k - 10) rest). split; [|split; auto].
  change (B "ID3" ++ [v; r; f; z0; z1; z2; z3] ++ rest) with ([73; 68; 51; v; r; f; z0; z1; z2; z3] ++ rest).
  rewrite takeN_app_ge by (change (len [73; 68; 51; v; r; f; z0; z1; z2; z3]) with 10; lia). reflexivity.
Qed.

Lemma slice_header7 data pos v r f n k : id3v2_header_at data pos v r f n -> 7 <= k ->
  exists z0 rest, slice pos k data = [73; 68; 51; v; r; f; z0] ++ rest.
Proof.
  intros (z0 & z1 & z2 & z3 & rest & E & _ & _ & HZ & HN) HK. unfold slice. rewrite E.
  exists z0, (takeN (k - 7) ([z1; z2; z3] ++ rest)).
  change (B "ID3" ++ [v; r; f; z0; z1; z2; z3] ++ rest) with ([73; 68; 51; v; r; f; z0] ++ ([z1; z2; z3] ++ rest)).
  rewrite takeN_app_ge by (change (len [73; 68; 51; v; r; f; z0]) with 7; lia). reflexivity.
Qed.

Lemma slice_header1 data pos v r f n k : id3v2_header_at data pos v r f n -> 1 <= k -> pos + k <= len data ->
  exists rest, slice pos k data = 73 :: rest /\ (4 <= k -> exists rest', slice pos k data = [73; 68; 51; v] ++ rest').
Proof.
  intros (z0 & z1 & z2 & z3 & rest & E & _) HK HL. unfold slice. rewrite E.
  change (B "ID3" ++ [v; r; f; z0; z1; z2; z3] ++ rest) with ([73; 68; 51; v] ++ ([r; f; z0; z1; z2; z3] ++ rest)).
  exists (takeN (k - 1) ([68; 51; v] ++ ([r; f; z0; z1; z2; z3] ++ rest))). split.
  - change ([73; 68; 51; v] ++ [r; f; z0; z1; z2; z3] ++ rest) with ([73] ++ ([68; 51; v] ++ [r; f; z0; z1; z2; z3] ++ rest)).
    rewrite takeN_app_ge by (change (len [73]) with 1; lia). reflexivity.
  - intros H4. exists (takeN (k - 4) ([r; f; z0; z1; z2; z3] ++ rest)).
    rewrite takeN_app_ge by (change (len [73; 68; 51; v]) with 4; lia). reflexivity.
Qed.

Lemma parse22_own_header f r z0 rest : r < 256 -> f < 256 -> N.land f 128 = 0 ->
  7 + len rest <= 131072 -> parse_body22 f ([73; 68; 51; 2; r; f; z0] ++ rest) = Throw InvalidTag.
Proof.
  intros HR HF HU HL. unfold parse_body22. rewrite HU. cbn [N.eqb negb].
  set (l := [73; 68; 51; 2; r; f; z0] ++ rest).
  assert (LL : len l = 7 + len rest) by (unfold l; rewrite len_app; reflexivity).
  destruct (length l) eqn:EN; [unfold len in LL; lia|]. cbn [frames22].
  unfold l at 1. cbn [app]. fold l.
  assert (FH : frame_head22 l [] = Ok (Some ([73; 68; 51], uint32_from_non_sync_safe3 2 r f))).
  { unfold frame_head22. replace (len l <=? 2) with false by (rewrite LL; lia). cbn [andb]. rewrite app_nil_r.
    unfold l. cbn [app]. reflexivity. }
  change (73 :: 68 :: 51 :: 2 :: r :: f :: z0 :: rest) with l. rewrite FH. cbn [bind].
  rewrite nss3_spec by assumption. replace (len l <=? 2 * 256 ^ 2 + r * 256 + f) with true; [reflexivity|].
  symmetry. apply N.leb_le. change (256 ^ 2) with 65536. lia.
Qed.

Lemma read_idx_v22 z passes data e idx l pos h : is_bytes data ->
  tags_from data pos l -> nth_error l idx = Some h ->
  hd_version h = 2 -> N.land (hd_flags h) 128 = 0 ->
  7 <= hd_size h -> hd_size h <= 131072 -> hd_at h + hd_size h <= len data ->
  fst (read_id3v2 z passes idx (mkIs data pos e 0)) = Throw InvalidTag.
Proof.
  intros HBy HT HN HV HU H7 HM HL. rewrite (read_idx_offset z passes data e idx l pos h HT HN).
  destruct (skip_tags_ok data e idx l pos h HT HN) as (_ & HH).
  destruct (read_version_at z passes (hd_version h) (hd_rev h) (hd_flags h) (hd_size h) data (hd_at h) e HL) as (-> & _).
  rewrite HV in *. unfold parse_any. cbn [N.eqb Pos.eqb].
  destruct (slice_header7 data (hd_at h) _ _ _ _ (hd_size h) HH H7) as (z0 & rest & ES).
  assert (HS : is_bytes (slice (hd_at h) (hd_size h) data)) by (unfold slice; apply is_bytes_takeN, is_bytes_dropN, HBy).
  assert (HLS : len (slice (hd_at h) (hd_size h) data) = hd_size h) by (unfold slice; rewrite len_takeN, len_dropN; lia).
  rewrite ES in *. rewrite parse22_own_header; [reflexivity| | |exact HU|].
  - inversion HS as [|? ? _ H1]; subst. do 3 (inversion H1 as [|? ? _ H2]; subst; clear H1; rename H2 into H1).
    now inversion H1.
  - inversion HS as [|? ? _ H1]; subst. do 4 (inversion H1 as [|? ? _ H2]; subst; clear H1; rename H2 into H1).
    now inversion H1.
  - rewrite len_app in HLS. change (len [73; 68; 51; 2; hd_rev h; hd_flags h; z0]) with 7 in HLS. lia.
Qed.

Lemma head23_own l id cb f0 f1 rest : l = 73 :: rest -> frame_head23 l [] = Ok (Some (id, cb, f0, f1)) -> takeN 4 l = id.
Proof.
  intros -> H. unfold frame_head23 in H. rewrite app_nil_r in H.
  destruct ((len (73 :: rest) <=? 3) && all_zero (73 :: rest)); [discriminate H|].
  destruct rest as [|i1 [|i2 [|i3 rest]]]; try discriminate H.
  change ((73 =? 0) && (i1 =? 0) && (i2 =? 0) && (i3 =? 0)) with false in H. cbv iota in H.
  destruct rest as [|s0 [|s1 [|s2 [|s3 [|g0 [|g1 [|x rest]]]]]]]; try discriminate H.
  injection H as <- _ _ _. rewrite takeN_firstn. reflexivity.
Qed.

Lemma frames23_own z fuel cbt rest fs : frames23 z fuel cbt (73 :: rest) [] = Ok fs ->
  exists f fs', fs = f :: fs' /\ f_id f = takeN 4 (73 :: rest).
Proof.
  destruct fuel as [|fuel]; [discriminate|]. cbn [frames23]. intros H.
  destruct (frame_head23 (73 :: rest) []) as [h| | |] eqn:FH; try discriminate H. cbn [bind] in H.
  destruct h as [[[[id cb] f0] f1]|].
  - pose proof (head23_own _ _ _ _ _ rest eq_refl FH) as EI. rewrite EI.
    destruct (cbt <=? cb); [discriminate H|].
    destruct (frame_extras23 f1 (dropN 10 (73 :: rest) ++ []) cb) as [[[[[dcsz enc] gid] pread] cbr]| | |]; try discriminate H.
    cbn [bind] in H.
    match type of H with bind ?x _ = _ => destruct x as [b| | |]; try discriminate H end.
    cbn [bind] in H. cbv zeta in H.
    match type of H with bind ?x _ = _ => destruct x as [r| | |]; try discriminate H end.
    cbn [bind] in H. apply Ok_inj in H. subst fs. eexists _, _. split; [reflexivity|]. reflexivity.
  - exfalso. unfold frame_head23 in FH. rewrite app_nil_r in FH.
    assert (AZ : all_zero (73 :: rest) = false) by reflexivity. rewrite AZ, andb_false_r in FH.
    destruct rest as [|i1 [|i2 [|i3 rest]]]; try discriminate FH.
    change ((73 =? 0) && (i1 =? 0) && (i2 =? 0) && (i3 =? 0)) with false in FH. cbv iota in FH.
    destruct rest as [|s0 [|s1 [|s2 [|s3 [|g0 [|g1 [|x rest]]]]]]]; discriminate FH.
Qed.

Lemma parse23_own z passes f rest t : N.land f 128 = 0 -> N.land f 64 = 0 ->
  parse_body23 z passes f (73 :: rest) = Ok t ->
  exists c cs, t3_frames t = c :: cs /\ f_id (c_frame c) = takeN 4 (73 :: rest).
Proof.
  intros HU HX H. unfold parse_body23 in H. rewrite HU, HX in H.
  change (negb (0 =? 0)) with false in H. cbv iota zeta in H. cbn [bind] in H.
  match type of H with bind ?x _ = _ => destruct x as [[pad ms]| | |]; try discriminate H end.
  cbn [bind] in H.
  destruct (frames23 z (S (length (73 :: rest))) (len (73 :: rest)) (73 :: rest) []) as [fs| | |] eqn:EF; try discriminate H.
  cbn [bind] in H. apply Ok_inj in H. subst t. cbn [t3_frames].
  destruct (frames23_own _ _ _ _ _ EF) as (g & fs' & -> & EI). exists (new_frame g), (map new_frame fs'). split; [reflexivity|exact EI].
Qed.

Lemma frames24_own z fuel cbt ms rest fs : frames24 z fuel cbt ms (73 :: rest) = Ok fs ->
  exists f fs', fs = f :: fs' /\ f_id f = takeN 4 (73 :: rest).
Proof.
  destruct fuel as [|fuel]; [discriminate|]. cbn [frames24]. intros H.
  assert (FI : forall id, frame_id24 (73 :: rest) = Ok (Some id) -> id = takeN 4 (73 :: rest)).
  { intros id FH. unfold frame_id24 in FH. assert (AZ : all_zero (73 :: rest) = false) by reflexivity. rewrite AZ, andb_false_r in FH.
    destruct rest as [|i1 [|i2 [|i3 rest]]]; try discriminate FH.
    change ((73 =? 0) && (i1 =? 0) && (i2 =? 0) && (i3 =? 0)) with false in FH. cbv iota in FH. injection FH as <-.
    rewrite takeN_firstn. reflexivity. }
  assert (FN : frame_id24 (73 :: rest) <> Ok None).
  { intros FH. unfold frame_id24 in FH. assert (AZ : all_zero (73 :: rest) = false) by reflexivity. rewrite AZ, andb_false_r in FH.
    destruct rest as [|i1 [|i2 [|i3 rest]]]; try discriminate FH. }
  destruct (frame_id24 (73 :: rest)) as [[id|]| | |]; try discriminate H; [|now elim FN].
  specialize (FI id eq_refl). rewrite <- FI. cbn [bind] in H.
  match type of H with (if ?c then _ else _) = _ => destruct c; [discriminate H|] end.
  destruct (frame_size24 (73 :: rest)) as [cb| | |]; try discriminate H. cbn [bind] in H.
  match type of H with (if ?c then _ else _) = _ => destruct c; [discriminate H|] end. cbv zeta in H.
  match type of H with bind ?x _ = _ => destruct x as [[[[[gid enc] dli] pread] cbr]| | |]; try discriminate H end.
  cbn [bind] in H.
  match type of H with bind ?x _ = _ => destruct x as [b| | |]; try discriminate H end. cbn [bind] in H.
  match type of H with bind ?x _ = _ => destruct x as [r| | |]; try discriminate H end. cbn [bind] in H.
  apply Ok_inj in H. subst fs. eexists _, _. split; [reflexivity|]. reflexivity.
Qed.

Lemma parse24_own z passes f rest t : N.land f 64 = 0 ->
  parse_body24 z passes f (73 :: rest) = Ok t ->
  exists c cs, t4_frames t = c :: cs /\ f_id (c_frame c) = takeN 4 (73 :: rest).
Proof.
  intros HX H. unfold parse_body24 in H. rewrite HX in H.
  change (negb (0 =? 0)) with false in H. cbv iota zeta in H. cbn [bind] in H.
  match type of H with bind ?x _ = _ => destruct x as [[pad ms]| | |]; try discriminate H end.
  cbn [bind] in H.
  destruct (frames24 z (S (length (73 :: rest))) (len (73 :: rest)) ms (73 :: rest)) as [fs| | |] eqn:EF; try discriminate H.
  cbn [bind] in H. apply Ok_inj in H. subst t. cbn [t4_frames].
  destruct (frames24_own _ _ _ _ _ _ EF) as (g & fs' & -> & EI). exists (new_frame g), (map new_frame fs'). split; [reflexivity|exact EI].
Qed.

Lemma read_idx_own z passes data e idx l pos h t :
  tags_from data pos l -> nth_error l idx = Some h ->
  (hd_version h = 3 \/ hd_version h = 4) -> N.land (hd_flags h) 64 = 0 -> (hd_version h = 3 -> N.land (hd_flags h) 128 = 0) ->
  4 <= hd_size h -> hd_at h + hd_size h <= len data ->
  fst (read_id3v2 z passes idx (mkIs data pos e 0)) = Ok t ->
  first_frame_id t = Some [73; 68; 51; hd_version h].
Proof.
  intros HT HN HV HX HU H4 HL. rewrite (read_idx_offset z passes data e idx l pos h HT HN).
  destruct (skip_tags_ok data e idx l pos h HT HN) as (_ & HH).
  destruct (read_version_at z passes (hd_version h) (hd_rev h) (hd_flags h) (hd_size h) data (hd_at h) e HL) as (-> & _).
  destruct (slice_header1 data (hd_at h) _ _ _ _ (hd_size h) HH ltac:(lia) HL) as (rest & E1 & E4).
  destruct (E4 H4) as (rest' & E4'). 
  assert (T4 : takeN 4 (73 :: rest) = [73; 68; 51; hd_version h]).
  { rewrite <- E1, E4'. apply takeN_app_exact. reflexivity. }
  rewrite E1. clear E1 E4 E4'. unfold parse_any. intros H.
  destruct HV as [HV|HV]; rewrite HV in *.
  - cbn [N.eqb Pos.eqb] in H. destruct (parse_body23 z passes (hd_flags h) (73 :: rest)) as [t'| | |] eqn:EP; try discriminate H.
    cbn [bind] in H. apply Ok_inj in H. subst t. destruct (parse23_own _ _ _ _ _ (HU eq_refl) HX EP) as (c & cs & E & EI).
    cbn [first_frame_id]. rewrite E. cbn [hd_error option_map]. rewrite EI, T4. reflexivity.
  - cbn [N.eqb Pos.eqb] in H. destruct (parse_body24 z passes (hd_flags h) (73 :: rest)) as [t'| | |] eqn:EP; try discriminate H.
    cbn [bind] in H. apply Ok_inj in H. subst t. destruct (parse24_own _ _ _ _ _ HX EP) as (c & cs & E & EI).
    cbn [first_frame_id]. rewrite E. cbn [hd_error option_map]. rewrite EI, T4. reflexivity.
Qed.
