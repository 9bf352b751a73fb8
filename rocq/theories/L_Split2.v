(** * Lemmas: splitting a file, as a whole. *)
From Verif Require Import Base M_Ints M_Stream M_Id3v1 M_Fs M_Tagset M_Split
  S_Ints S_Stream S_Id3v1 S_Read S_Tagset S_Split L_Stream L_Id3v1 L_Id3v1c L_Read L_Fs L_Tagset4 L_Tagset5 L_Split.

Lemma slice_to_end (data : bytes) a : a <= len data -> slice a (len data - a) data = dropN a data.
Proof. intros H. unfold slice. apply takeN_all. rewrite len_dropN. lia. Qed.

Lemma split_traced cwd p suffix data l fs : let k := resolve cwd p in
  find_node k fs = Some (File data) -> len data < 2 ^ 63 -> ~ In 47 suffix -> no_piece cwd suffix k -> tags_from data 0 l ->
  let ok := steady (fun j => exists n, is_piece suffix n /\ j = resolve cwd n) k data fs in
  traced ok (split_file cwd p suffix)
    (fun o fs' => ok fs' /\
     match o with
     | Ok _ => tags_end 0 l <= v1_start data /\
         (forall i h, nth_error l i = Some h ->
            find_node (resolve cwd (tag_piece (N.of_nat i) suffix)) fs' = Some (File (slice (hd_at h) (10 + hd_size h) data))) /\
         find_node (resolve cwd (track_piece suffix)) fs'
           = Some (File (slice (tags_end 0 l) (v1_start data - tags_end 0 l) data)) /\
         (v1_start data < len data -> find_node (resolve cwd (v1_piece suffix)) fs' = Some (File (dropN (v1_start data) data))) /\
         (v1_start data = len data ->
            find_node (resolve cwd (v1_piece suffix)) fs' = find_node (resolve cwd (v1_piece suffix)) fs)
     | Throw _ => ~ (room cwd suffix fs /\ tags_end 0 l <= v1_start data)
     | _ => False
     end) fs.
Proof.
  intros k Hk Hlen HS HN Hl ok. unfold traced, split_file. fold k. cbv zeta. rewrite Hk.
  match goal with |- context [fbind ?x ?f fs] =>
    match goal with |- ?G => enough (E : traced ok (fbind x f) (fun o fs' => ok fs' /\
     match o with
     | Ok _ => tags_end 0 l <= v1_start data /\
         (forall i h, nth_error l i = Some h ->
            find_node (resolve cwd (tag_piece (N.of_nat i) suffix)) fs' = Some (File (slice (hd_at h) (10 + hd_size h) data))) /\
         find_node (resolve cwd (track_piece suffix)) fs'
           = Some (File (slice (tags_end 0 l) (v1_start data - tags_end 0 l) data)) /\
         (v1_start data < len data -> find_node (resolve cwd (v1_piece suffix)) fs' = Some (File (dropN (v1_start data) data))) /\
         (v1_start data = len data ->
            find_node (resolve cwd (v1_piece suffix)) fs' = find_node (resolve cwd (v1_piece suffix)) fs)
     | Throw _ => ~ (room cwd suffix fs /\ tags_end 0 l <= v1_start data)
     | _ => False
     end) fs) by exact E end end.
  assert (Ho : ok fs) by (split; auto).
  destruct (find_start data) as (V1 & V2 & V3).
  assert (PT : is_piece suffix (track_piece suffix)) by (right; left; reflexivity).
  assert (PV : is_piece suffix (v1_piece suffix)) by (right; right; reflexivity).
  apply traced_bind.
  assert (HI : forall i, k <> resolve cwd (tag_piece i suffix)) by (intros i; apply HN; left; eauto).
  pose proof (tags_traced cwd suffix k data fs HS HI Hlen l 0 (S (List.length data)) 0 fs Hl (tags_fuel _ _ Hl) (N.le_0_l _) Ho) as [T1 [T2 T3]].
  split; [exact T1|]. set (r := snd (split_tags _ _ _ _ _ _ _)) in *.
  destruct (fst r) as [s|x|u|]; [|split; [exact T2|]; intros [HR HE]; apply T3; split; [exact HR|lia]|elim T3|elim T3].
  destruct T3 as (A1 & -> & A3 & A4 & A5).
  apply traced_bind. apply traced_on with (data := data); [apply T2|]. cbv zeta. cbn [s_pos s_exc s_state].
  rewrite ends_in_eq by reflexivity. cbn [fst snd bind s_data].
  apply traced_bind. apply traced_on with (data := data); [apply T2|]. cbv zeta. cbn [s_pos s_exc s_state].
  rewrite tellg_good by reflexivity. cbn [fst snd bind s_pos]. rewrite V1, V2.
  set (q := tags_end 0 l) in *. set (v := v1_start data) in *.
  apply traced_bind. change (B "track" ++ suffix) with (track_piece suffix).
  pose proof (piece_traced cwd suffix k data fs HS HI Hlen (track_piece suffix) q (wrap64 (v + 2 ^ 64 - q)) (snd r) PT (HN _ PT) T2) as [B1 [B2 B3]].
  split; [exact B1|]. set (r2 := snd (xfer_bytes _ _ _ _ _ _)) in *.
  destruct (fst r2) as [s|x|u|]; [| |elim B3|elim B3].
  2:{ split; [exact B2|]. intros [HR HE]. apply B3. split; [now apply A5|].
      rewrite (wrap_sub data _ _ Hlen) by exact V3. destruct (N.leb_spec q v); [|lia]. apply slice_len. lia. }
  destruct B3 as (C1 & -> & C3 & C4 & C5).
  assert (QV : q <= v).
  { destruct (N.leb_spec q v) as [|LT]; [assumption|]. exfalso. clear C3 C4 C5 B1 B2 T1 A3 A4 A5.
    rewrite (wrap_neg data _ _ Hlen) in C1 by assumption. unfold slice in C1. rewrite len_takeN, len_dropN in C1.
    clearbody q v. lia. }
  rewrite (wrap_sub data _ _ Hlen) in * by exact V3.
  assert (QB : (q <=? v) = true) by now apply N.leb_le. rewrite QB in *.
  replace (q + (v - q)) with v in * by lia.
  assert (Tags : forall i h, nth_error l i = Some h ->
     find_node (resolve cwd (tag_piece (N.of_nat i) suffix)) (snd r2) = Some (File (slice (hd_at h) (10 + hd_size h) data))).
  { intros i h Hi. rewrite C4; [now apply (A3 i h)|]. apply (piece_key cwd suffix HS); [left; eauto|exact PT|apply tag_track]. }
  destruct (N.eqb_spec v (len data)) as [EV|EV].
  - apply traced_ret. split; [exact B2|]. split; [exact QV|]. split; [exact Tags|]. split; [exact C3|].
    split; [lia|]. intros _. rewrite C4.
    + apply A4. intros i _ E. revert E. apply (piece_key cwd suffix HS); [exact PV|left; eauto|]. intros E. symmetry in E. now apply tag_v1 in E.
    + apply (piece_key cwd suffix HS); [exact PV|exact PT|]. intros E. symmetry in E. now apply track_v1 in E.
  - clearbody r2. apply traced_bind. change (B "id3v1" ++ suffix) with (v1_piece suffix).
    rewrite (wrap_sub data _ _ Hlen) by lia.
    assert (VB : (v <=? len data) = true) by now apply N.leb_le. rewrite VB.
    pose proof (piece_traced cwd suffix k data fs HS HI Hlen (v1_piece suffix) v (len data - v) (snd r2) PV (HN _ PV) B2) as [D1 [D2 D3]].
    split; [exact D1|]. set (r3 := snd (xfer_bytes _ _ _ _ _ _)) in *.
    destruct (fst r3) as [s|x|u|]; [| |elim D3|elim D3].
    + destruct D3 as (E1 & E2 & E3 & E4 & E5). apply traced_ret. split; [exact D2|]. split; [exact QV|].
      split; [|split; [|split; [|lia]]].
      * intros i h Hi. rewrite E4; [now apply Tags|]. apply (piece_key cwd suffix HS); [left; eauto|exact PV|apply tag_v1].
      * rewrite E4; [exact C3|]. apply (piece_key cwd suffix HS); [exact PT|exact PV|apply track_v1].
      * intros _. rewrite E3. now rewrite slice_to_end by exact V3.
    + split; [exact D2|]. intros [HR HE]. apply D3. split; [apply C5, A5, HR|]. apply slice_len. lia.
Qed.

(** ** The pieces add up *)
Lemma concat_tags data l : forall pos, tags_from data pos l -> tags_end pos l <= len data ->
  concat (map (fun h => slice (hd_at h) (10 + hd_size h) data) l) = slice pos (tags_end pos l - pos) data.
Proof.
  induction l as [|h l IH]; intros pos HT HL; cbn [map concat tags_end].
  - rewrite N.sub_diag. unfold slice. rewrite takeN_firstn. reflexivity.
  - destruct HT as (-> & HH & HT). cbn [tags_end] in HL. pose proof (tags_end_ge l (pos + 10 + hd_size h)) as GE.
    rewrite (IH _ HT HL). replace (pos + 10 + hd_size h) with (pos + (10 + hd_size h)) in * by lia.
    rewrite slice_split. f_equal. lia.
Qed.

Lemma header_shift data pos v r f sz : id3v2_header_at data pos v r f sz -> id3v2_header_at (dropN pos data) 0 v r f sz.
Proof. intros (z0 & z1 & z2 & z3 & rest & E & H). exists z0, z1, z2, z3, rest. now rewrite dropN_0. Qed.
Lemma header_take data pos v r f sz n : id3v2_header_at data pos v r f sz -> 10 <= n ->
  id3v2_header_at (slice pos n data) 0 v r f sz.
Proof.
  intros (z0 & z1 & z2 & z3 & rest & E & H) Hn. exists z0, z1, z2, z3, (takeN (n - 10) rest). split; [|exact H].
  rewrite dropN_0. unfold slice. rewrite E.
  change (B "ID3" ++ [v; r; f; z0; z1; z2; z3] ++ rest) with ([73; 68; 51; v; r; f; z0; z1; z2; z3] ++ rest).
  rewrite takeN_app_ge by (cbn; lia). reflexivity.
Qed.

Lemma tags_one data l : forall pos, tags_from data pos l -> tags_end pos l <= len data ->
  Forall one_tag (map (fun h => slice (hd_at h) (10 + hd_size h) data) l).
Proof.
  induction l as [|h l IH]; intros pos HT HL; cbn [map]; [constructor|].
  destruct HT as (-> & HH & HT). cbn [tags_end] in HL. pose proof (tags_end_ge l (pos + 10 + hd_size h)) as GE.
  constructor; [|now apply (IH (pos + 10 + hd_size h))].
  do 4 eexists. split; [eapply header_take; [exact HH|lia]|]. apply slice_len. lia.
Qed.
Lemma tags_stop data l : forall pos, tags_from data pos l -> ~ starts_with_tag (dropN (tags_end pos l) data).
Proof.
  induction l as [|h l IH]; intros pos HT; cbn [tags_end].
  - intros (v & r & f & sz & H). apply (HT v r f sz). destruct H as (z0 & z1 & z2 & z3 & rest & E & H).
    exists z0, z1, z2, z3, rest. rewrite dropN_0 in E. now split.
  - destruct HT as (_ & _ & HT). now apply IH.
Qed.

(** ** When the input has the name of the track *)
Lemma own_name cwd p suffix data l fs : let k := resolve cwd p in
  find_node k fs = Some (File data) -> len data < 2 ^ 63 -> ~ In 47 suffix -> k = resolve cwd (track_piece suffix) ->
  tags_from data 0 l -> tags_end 0 l <= len data -> room cwd suffix fs ->
  find_node k (snd (snd (split_file cwd p suffix fs))) = Some (File []).
Proof.
  intros k Hk Hlen HS HN Hl HE HR. unfold split_file. fold k. cbv zeta. rewrite Hk.
  assert (PT : is_piece suffix (track_piece suffix)) by (right; left; reflexivity).
  assert (PV : is_piece suffix (v1_piece suffix)) by (right; right; reflexivity).
  set (P := fun j => exists n, is_piece suffix n /\ j = resolve cwd n).
  match goal with |- context [fbind ?x ?f fs] =>
    enough (E : traced (fun _ => True) (fbind x f) (fun _ fs' => find_node k fs' = Some (File [])) fs) by exact (proj2 E) end.
  assert (Ho : steady P k data fs fs) by (split; auto).
  assert (HI : forall i, k <> resolve cwd (tag_piece i suffix)).
  { intros i. rewrite HN. apply (piece_key cwd suffix HS); [exact PT|left; eauto|]. intros E. symmetry in E. now apply tag_track in E. }
  assert (TT : forall A (l : list A), Forall (fun _ => True) l) by (intros; apply Forall_forall; auto).
  apply traced_bind.
  pose proof (tags_traced cwd suffix k data fs HS HI Hlen l 0 (S (List.length data)) 0 fs Hl (tags_fuel _ _ Hl) (N.le_0_l _) Ho) as [T1 [T2 T3]].
  split; [apply TT|]. set (r := snd (split_tags _ _ _ _ _ _ _)) in *.
  destruct (fst r) as [s|x|u|]; [|elim T3; auto|elim T3|elim T3].
  destruct T3 as (A1 & -> & A3 & A4 & A5). specialize (A5 HR). clearbody r.
  apply traced_bind. apply traced_on with (data := data); [apply T2|]. cbv zeta. cbn [s_pos s_exc s_state].
  rewrite ends_in_eq by reflexivity. cbn [fst snd bind s_data].
  apply traced_bind. apply traced_on with (data := data); [apply T2|]. cbv zeta. cbn [s_pos s_exc s_state].
  rewrite tellg_good by reflexivity. cbn [fst snd bind s_pos].
  set (q := tags_end 0 l) in *. set (cb := wrap64 _).
  apply traced_bind. change (B "track" ++ suffix) with (track_piece suffix).
  unfold xfer_bytes at 1. apply traced_bind. unfold traced at 1.
  rewrite open_ok by (now apply (room_openable cwd suffix)). cbn [fst snd]. rewrite <- HN. split; [apply TT|].
  destruct (2 ^ 63 <=? cb); [apply traced_throw; apply find_set_same|].
  apply traced_bind. apply traced_on with (data := []); [apply find_set_same|]. cbv zeta. cbn [s_pos s_exc s_state].
  assert (E0 : slice q cb (@nil N) = []) by (unfold slice; rewrite takeN_firstn, dropN_skipn, skipn_nil; apply firstn_nil).
  destruct (N.eq_dec cb 0) as [EC|EC].
  - rewrite sread_good; [|reflexivity|cbn [s_pos s_data]; rewrite E0, EC; reflexivity]. cbn [fst snd bind s_pos s_data s_exc]. rewrite E0.
    apply traced_bind. apply traced_append; [auto|]. apply traced_ret. rewrite find_set_same. cbn [app].
    set (fs2 := set_node _ _ _). assert (H2 : find_node k fs2 = Some (File [])) by apply find_set_same. clearbody fs2.
    destruct (v1i_start _ =? v1i_end _); [apply traced_ret; exact H2|].
    apply traced_bind. change (B "id3v1" ++ suffix) with (v1_piece suffix).
    assert (NV : resolve cwd (v1_piece suffix) <> k).
    { rewrite HN. apply (piece_key cwd suffix HS); [exact PV|exact PT|]. intros E. symmetry in E. now apply track_v1 in E. }
    match goal with |- context [xfer_bytes _ _ (mkIs _ ?p _ _) _ ?c] =>
      pose proof (xfer_traced P fs2 cwd k [] (v1_piece suffix) p c fs2 (conj H2 (fun _ _ => eq_refl)) NV
        (ex_intro _ _ (conj PV eq_refl))) as [D1 [D2 D3]] end.
    split; [apply TT|]. set (rr := snd (xfer_bytes _ _ _ _ _ _)) in *. clearbody rr. destruct (fst rr) as [s|x|u|]; try apply D2. apply traced_ret. apply D2.
  - rewrite sread_short; [|reflexivity|reflexivity|cbn [s_pos s_data]; rewrite E0; intros E; apply EC; rewrite <- E; reflexivity].
    cbn [bind]. apply find_set_same.
Qed.

(** ** What the command does *)
Lemma split_pieces cwd p suffix data fs states fs' : let k := resolve cwd p in
  find_node k fs = Some (File data) -> len data < 2 ^ 63 -> ~ In 47 suffix -> no_piece cwd suffix k ->
  split_file cwd p suffix fs = (states, (Ok tt, fs')) ->
  exists tags track v1,
    data = concat tags ++ track ++ v1 /\
    Forall one_tag tags /\ ~ starts_with_tag (track ++ v1) /\ len (concat tags ++ track) = v1_start data /\
    (forall i t, nth_error tags i = Some t ->
       find_node (resolve cwd (tag_piece (N.of_nat i) suffix)) fs' = Some (File t)) /\
    find_node (resolve cwd (track_piece suffix)) fs' = Some (File track) /\
    (v1 <> [] -> find_node (resolve cwd (v1_piece suffix)) fs' = Some (File v1)) /\
    (v1 = [] -> find_node (resolve cwd (v1_piece suffix)) fs' = find_node (resolve cwd (v1_piece suffix)) fs).
Proof.
  intros k Hk Hlen HS HN E. destruct (tags_exist data) as (l & Hl).
  pose proof (split_traced cwd p suffix data l fs Hk Hlen HS HN Hl) as [_ T]. rewrite E in T. cbn [fst snd] in T.
  destruct T as [_ (A1 & A2 & A3 & A4 & A5)]. destruct (find_start data) as (_ & _ & V3).
  set (q := tags_end 0 l) in *. set (v := v1_start data) in *.
  exists (map (fun h => slice (hd_at h) (10 + hd_size h) data) l), (slice q (v - q) data), (dropN v data).
  assert (E1 : concat (map (fun h => slice (hd_at h) (10 + hd_size h) data) l) = takeN q data).
  { rewrite (concat_tags data l 0 Hl) by (fold q; lia). fold q. rewrite N.sub_0_r. apply slice_0. }
  assert (E2 : slice q (v - q) data ++ dropN v data = dropN q data).
  { rewrite <- (slice_to_end data v) by exact V3. replace v with (q + (v - q)) at 2 by lia. rewrite slice_split.
    replace (v - q + (len data - v)) with (len data - q) by lia. apply slice_to_end. lia. }
  split; [rewrite E1, E2; symmetry; apply takeN_dropN|].
  split; [apply (tags_one data l 0 Hl); fold q; lia|].
  split; [rewrite E2; now apply (tags_stop data l 0)|].
  split. { rewrite E1, len_app, slice_len by lia. rewrite len_takeN. lia. }
  split. { intros i t Hi. rewrite nth_error_map in Hi. destruct (nth_error l i) as [h|] eqn:EH; [|discriminate]. injection Hi as <-.
           now apply A2. }
  split; [exact A3|]. split.
  - intros NE. apply A4. destruct (N.eq_dec v (len data)) as [EV|]; [|lia]. elim NE. rewrite EV.
    rewrite dropN_skipn. unfold len. rewrite Nat2N.id. apply skipn_all.
  - intros EE. apply A5. assert (L : len (dropN v data) = 0) by now rewrite EE. rewrite len_dropN in L. lia.
Qed.

Lemma split_accepts cwd p suffix data l fs : let k := resolve cwd p in
  find_node k fs = Some (File data) -> len data < 2 ^ 63 -> ~ In 47 suffix -> no_piece cwd suffix k -> room cwd suffix fs ->
  tags_from data 0 l ->
  match fst (snd (split_file cwd p suffix fs)) with
  | Ok _ => tags_end 0 l <= v1_start data
  | Throw _ => v1_start data < tags_end 0 l
  | _ => False
  end.
Proof.
  intros k Hk Hlen HS HN HR Hl. pose proof (split_traced cwd p suffix data l fs Hk Hlen HS HN Hl) as [_ [_ T]].
  destruct (fst (snd _)); [apply T| |exact T|exact T]. destruct (N.leb_spec (tags_end 0 l) (v1_start data)); [|assumption]. elim T. auto.
Qed.

Lemma split_kept cwd p suffix data fs : let k := resolve cwd p in
  find_node k fs = Some (File data) -> len data < 2 ^ 63 -> ~ In 47 suffix -> no_piece cwd suffix k ->
  Forall (fun s => find_node k s = Some (File data) /\
                   forall j, no_piece cwd suffix j -> find_node j s = find_node j fs)
    (snd (snd (split_file cwd p suffix fs)) :: fst (split_file cwd p suffix fs)).
Proof.
  intros k Hk Hlen HS HN. destruct (tags_exist data) as (l & Hl).
  pose proof (split_traced cwd p suffix data l fs Hk Hlen HS HN Hl) as [T1 [T2 _]].
  assert (G : forall s, steady (fun j => exists n, is_piece suffix n /\ j = resolve cwd n) k data fs s ->
     find_node k s = Some (File data) /\ forall j, no_piece cwd suffix j -> find_node j s = find_node j fs).
  { intros s [H1 H2]. split; [exact H1|]. intros j Hj. apply H2. intros (n & Hn & E). exact (Hj n Hn E). }
  constructor; [now apply G|]. eapply Forall_impl; [|exact T1]. exact G.
Qed.
