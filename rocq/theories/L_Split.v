(** * Lemmas: splitting a file. *)
From Verif Require Import Base M_Ints M_Stream M_Id3v1 M_Fs M_Tagset M_Split
  S_Ints S_Stream S_Id3v1 S_Read S_Tagset S_Split L_Stream L_Id3v1 L_Id3v1c L_Read L_Fs L_Tagset5.

(** ** Where the names lead *)
Lemma components_last_slash acc x : components acc (x ++ [47]) = components acc x ++ [[]].
Proof. now rewrite (components_app acc x []). Qed.

Lemma resolve_plain cwd n : plain_name n -> resolve cwd n = resolve_abs cwd ++ [n].
Proof.
  intros HP. pose proof HP as (H47 & H0 & _). unfold resolve, absolute.
  assert (E : match n with [] => join cwd n | c :: _ => if c =? 47 then n else join cwd n end = join cwd n).
  { destruct n as [|c r]; [reflexivity|]. destruct (N.eqb_spec c 47) as [->|]; [elim H47; now left|reflexivity]. }
  rewrite E. unfold join. destruct (rev cwd) as [|c r] eqn:ER.
  - assert (cwd = []) as -> by (rewrite <- (rev_involutive cwd), ER; reflexivity).
    unfold resolve_abs. rewrite components_name by exact H47. cbn [rev app fold_left components].
    rewrite walk_name by exact HP. reflexivity.
  - destruct (N.eqb_spec c 47) as [->|Hc]; [|exact (resolve_spelled cwd n HP)].
    assert (cwd = rev r ++ [47]) as -> by (rewrite <- (rev_involutive cwd), ER; reflexivity).
    rewrite <- app_assoc. cbn [app]. transitivity (resolve_abs (rev r) ++ [n]); [exact (resolve_spelled (rev r) n HP)|].
    unfold resolve_abs at 2. rewrite components_last_slash, fold_left_app. reflexivity.
Qed.

Lemma resolve_plain_inj cwd m n : plain_name m -> plain_name n -> resolve cwd m = resolve cwd n -> m = n.
Proof.
  intros Hm Hn. rewrite !resolve_plain by assumption. intros H. apply app_inj_tail in H. apply H.
Qed.

Lemma plain_prefix x c r : ~ In 47 (x :: c :: r) -> x <> 46 -> plain_name (x :: c :: r).
Proof.
  intros H N1. split; [exact H|]. split; [discriminate|]. split; congruence.
Qed.

Lemma piece_plain suffix n : ~ In 47 suffix -> is_piece suffix n -> plain_name n.
Proof.
  intros HS. assert (D : forall i, ~ In 47 (decimal i)).
  { intros i. apply (digits_no_sep (decimal i)). apply decimal_spec. }
  intros [[i ->]|[-> | ->]].
  - unfold tag_piece. cbn [B app]. change (B "id3v2" ++ decimal i ++ suffix) with (105 :: 100 :: [51; 118; 50] ++ decimal i ++ suffix).
    apply plain_prefix; [|discriminate]. cbn [In app]. rewrite in_app_iff. specialize (D i). intuition discriminate.
  - change (track_piece suffix) with (116 :: 114 :: [97; 99; 107] ++ suffix).
    apply plain_prefix; [|discriminate]. cbn [In app]. intuition discriminate.
  - change (v1_piece suffix) with (105 :: 100 :: [51; 118; 49] ++ suffix).
    apply plain_prefix; [|discriminate]. cbn [In app]. intuition discriminate.
Qed.

Lemma tag_piece_inj i j suffix : tag_piece i suffix = tag_piece j suffix -> i = j.
Proof.
  unfold tag_piece. intros H. apply app_inv_head in H. apply app_inv_tail in H.
  rewrite <- (proj1 (decimal_spec i)), <- (proj1 (decimal_spec j)), H. reflexivity.
Qed.
Lemma tag_track i suffix : tag_piece i suffix <> track_piece suffix.
Proof. discriminate. Qed.
Lemma tag_v1 i suffix : tag_piece i suffix <> v1_piece suffix.
Proof. discriminate. Qed.
Lemma track_v1 suffix : track_piece suffix <> v1_piece suffix.
Proof. discriminate. Qed.

(** ** One piece *)
Definition openable (cwd n : bytes) (fs : fsys) : Prop :=
  is_dir fs (resolve cwd n) = false /\ is_dir fs (removelast (resolve cwd n)) = true /\ last n 47 <> 47.

Lemma open_ok cwd n fs : openable cwd n fs ->
  open_ofstream cwd n fs = ([set_node (resolve cwd n) (File []) fs], (Ok (resolve cwd n), set_node (resolve cwd n) (File []) fs)).
Proof.
  intros (H1 & H2 & H3). unfold open_ofstream. cbv zeta. rewrite H1, H2. apply N.eqb_neq in H3. rewrite H3. reflexivity.
Qed.
Lemma open_no cwd n fs : ~ openable cwd n fs -> open_ofstream cwd n fs = ([], (Throw IosFailure, fs)).
Proof.
  intros H. unfold open_ofstream. cbv zeta.
  destruct (is_dir fs (resolve cwd n) || negb (is_dir fs (removelast (resolve cwd n))) || (last n 47 =? 47)) eqn:E; [reflexivity|].
  elim H. apply orb_false_iff in E as [E E3]. apply orb_false_iff in E as [E1 E2].
  split; [exact E1|]. split; [now destruct (is_dir fs (removelast _))|]. now apply N.eqb_neq.
Qed.

(** The file [k] holds [data] and every file outside [P] is as it was in [fs0]. *)
Definition steady (P : key -> Prop) (k : key) (data : bytes) (fs0 fs : fsys) : Prop :=
  find_node k fs = Some (File data) /\ forall j, ~ P j -> find_node j fs = find_node j fs0.

Lemma steady_set (P : key -> Prop) k data fs0 fs j n : j <> k -> P j -> steady P k data fs0 fs -> steady P k data fs0 (set_node j n fs).
Proof.
  intros N1 HP [H1 H2]. split; [now rewrite find_set_other by congruence|].
  intros i Hi. rewrite find_set_other; [now apply H2|]. intros ->. contradiction.
Qed.

Lemma sread_short n s : s_state s = 0 -> s_exc s = all_bits -> len (slice (s_pos s) n (s_data s)) <> n ->
  fst (sread n s) = Throw IosFailure.
Proof.
  intros H0 HE HL. unfold sread. rewrite H0. cbv beta iota. change (0 =? 0) with true. cbv iota zeta.
  apply N.eqb_neq in HL. rewrite HL. unfold setstate. cbn [s_state s_exc s_data s_pos]. rewrite HE. reflexivity.
Qed.

Lemma traced_on {A} (Q : fsys -> Prop) k s (m : ST A) (post : outcome (A * istream) -> fsys -> Prop) fs data :
  find_node k fs = Some (File data) ->
  (let r := m (mkIs data (s_pos s) (s_exc s) (s_state s)) in
   post (let* a := fst r in Ok (a, snd r)) fs) ->
  traced Q (on_stream k s m) post fs.
Proof.
  intros Hk H. unfold traced, on_stream. rewrite Hk. cbv zeta in *.
  destruct (m (mkIs data (s_pos s) (s_exc s) (s_state s))) as [o s']. split; [constructor|exact H].
Qed.

Lemma xfer_traced (P : key -> Prop) fs0 cwd k data n pos cb fs : let out := resolve cwd n in
  steady P k data fs0 fs -> out <> k -> P out ->
  traced (steady P k data fs0) (xfer_bytes cwd k (mkIs data pos all_bits 0) n cb)
    (fun o fs' => steady P k data fs0 fs' /\
       match o with
       | Ok s => cb < 2 ^ 63 /\ len (slice pos cb data) = cb /\ s = mkIs data (pos + cb) all_bits 0 /\
           find_node out fs' = Some (File (slice pos cb data)) /\
           (forall j, j <> out -> find_node j fs' = find_node j fs)
       | Throw _ => ~ (openable cwd n fs /\ cb < 2 ^ 63 /\ len (slice pos cb data) = cb)
       | _ => False
       end) fs.
Proof.
  intros out HS Nk HP. unfold xfer_bytes. apply traced_bind.
  assert (Dec : openable cwd n fs \/ ~ openable cwd n fs).
  { unfold openable. destruct (is_dir fs (resolve cwd n)); [right; intros (? & _); discriminate|].
    destruct (is_dir fs (removelast (resolve cwd n))); [|right; intros (_ & ? & _); discriminate].
    destruct (N.eq_dec (last n 47) 47); [right; intros (_ & _ & ?); contradiction|left; auto]. }
  destruct Dec as [O|O].
  2:{ unfold traced. rewrite open_no by exact O. split; [constructor|]. cbn [fst snd]. split; [exact HS|]. tauto. }
  unfold traced at 1. rewrite open_ok by exact O. fold out. cbn [fst snd].
  assert (HS1 : steady P k data fs0 (set_node out (File []) fs)) by now apply steady_set.
  split; [constructor; [exact HS1|constructor]|].
  destruct (N.leb_spec (2 ^ 63) cb) as [HB|HB].
  { apply traced_throw. split; [exact HS1|]. lia. }
  apply traced_bind. apply traced_on with (data := data); [apply HS1|]. cbv zeta. cbn [s_pos s_exc s_state].
  destruct (N.eq_dec (len (slice pos cb data)) cb) as [HL|HL].
  2:{ rewrite sread_short by (reflexivity || exact HL). cbn [bind]. split; [exact HS1|]. tauto. }
  rewrite sread_good by (reflexivity || exact HL). cbn [fst snd bind s_pos s_data s_exc].
  apply traced_bind. apply traced_append.
  - intros b. now apply steady_set.
  - rewrite find_set_same. apply traced_ret. cbn [app]. split; [now apply steady_set|].
    split; [exact HB|]. split; [exact HL|]. split; [rewrite ?HL; reflexivity|]. split; [apply find_set_same|].
    intros j Hj. now rewrite !find_set_other by exact Hj.
Qed.

(** ** Room for the pieces *)
Lemma room_openable cwd suffix fs n : ~ In 47 suffix -> room cwd suffix fs -> is_piece suffix n -> openable cwd n fs.
Proof.
  intros HS [H1 H2] HP. pose proof (piece_plain suffix n HS HP) as PL. specialize (H2 n HP). unfold openable.
  rewrite resolve_plain in * by exact PL. rewrite removelast_last. split; [|split; [exact H1|]].
  - unfold is_dir. destruct (resolve_abs cwd ++ [n]) as [|x q] eqn:E; [now destruct (resolve_abs cwd)|].
    destruct (find_node (x :: q) fs) as [[]|]; congruence.
  - destruct PL as (H47 & H0 & _). intros E. apply H47. destruct (exists_last H0) as (x & c & ->).
    rewrite last_last in E. subst c. rewrite in_app_iff. right. now left.
Qed.

Lemma room_step cwd suffix fs fs' n b : ~ In 47 suffix -> is_piece suffix n -> room cwd suffix fs ->
  find_node (resolve cwd n) fs' = Some (File b) ->
  (forall j, j <> resolve cwd n -> find_node j fs' = find_node j fs) -> room cwd suffix fs'.
Proof.
  intros HS HP [H1 H2] HF HO. split.
  - unfold is_dir in *. destruct (resolve_abs cwd) as [|a q] eqn:E; [reflexivity|]. rewrite HO; [exact H1|].
    rewrite resolve_plain by (eapply piece_plain; eassumption). rewrite E. intros E2.
    apply (f_equal (@List.length bytes)) in E2. rewrite app_length in E2. cbn in E2. lia.
  - intros m Hm. destruct (key_eqb_spec (resolve cwd m) (resolve cwd n)) as [E|E].
    + rewrite E, HF. discriminate.
    + rewrite HO by exact E. now apply H2.
Qed.

(** ** The tags *)
Section Split.
  Context (cwd suffix : bytes) (k : key) (data : bytes) (fs0 : fsys)
    (HS : ~ In 47 suffix) (Hk : forall i, k <> resolve cwd (tag_piece i suffix)) (Hlen : len data < 2 ^ 63).
  Let P (j : key) : Prop := exists n, is_piece suffix n /\ j = resolve cwd n.
  Let ok := steady P k data fs0.

  Lemma piece_key n m : is_piece suffix n -> is_piece suffix m -> n <> m -> resolve cwd n <> resolve cwd m.
  Proof. intros Hn Hm N1 E. apply N1. eapply resolve_plain_inj; [..|exact E]; eapply piece_plain; eassumption. Qed.

  Lemma piece_traced n pos cb fs : is_piece suffix n -> k <> resolve cwd n -> ok fs ->
    traced ok (xfer_bytes cwd k (mkIs data pos all_bits 0) n cb)
      (fun o fs' => ok fs' /\
       match o with
       | Ok s => len (slice pos cb data) = cb /\ s = mkIs data (pos + cb) all_bits 0 /\
           find_node (resolve cwd n) fs' = Some (File (slice pos cb data)) /\
           (forall j, j <> resolve cwd n -> find_node j fs' = find_node j fs) /\
           (room cwd suffix fs -> room cwd suffix fs')
       | Throw _ => ~ (room cwd suffix fs /\ len (slice pos cb data) = cb)
       | _ => False
       end) fs.
  Proof.
    intros Hn Ne Ho. pose proof (xfer_traced P fs0 cwd k data n pos cb fs Ho (not_eq_sym Ne)
      (ex_intro _ n (conj Hn eq_refl))) as [T1 T2]. split; [exact T1|].
    destruct T2 as [T2 T3]. split; [exact T2|]. destruct (fst (snd _)) as [s|x|u|]; [|..|exact T3|exact T3].
    - destruct T3 as (A1 & A2 & A3 & A4 & A5). repeat (split; [assumption|]).
      intros HR. now apply (room_step cwd suffix fs _ n (slice pos cb data)).
    - intros [HR HL]. apply T3. split; [now apply (room_openable cwd suffix)|]. split; [|exact HL].
      apply N.le_lt_trans with (len data); [|exact Hlen]. rewrite <- HL.
      unfold slice. rewrite len_takeN, len_dropN. lia.
  Qed.

  Lemma slice_short pos n : len (slice pos n data) = n -> n = 0 \/ pos + n <= len data.
  Proof. unfold slice. rewrite len_takeN, len_dropN. lia. Qed.

  Lemma tags_traced l : forall pos fuel count fs, tags_from data pos l -> (List.length l < fuel)%nat -> pos <= len data -> ok fs ->
    traced ok (split_tags fuel cwd k suffix count (mkIs data pos all_bits 0))
      (fun o fs' => ok fs' /\
       match o with
       | Ok s => tags_end pos l <= len data /\ s = mkIs data (tags_end pos l) all_bits 0 /\
           (forall i h, nth_error l i = Some h ->
              find_node (resolve cwd (tag_piece (count + N.of_nat i) suffix)) fs'
              = Some (File (slice (hd_at h) (10 + hd_size h) data))) /\
           (forall j, (forall i, count <= i -> j <> resolve cwd (tag_piece i suffix)) -> find_node j fs' = find_node j fs) /\
           (room cwd suffix fs -> room cwd suffix fs')
       | Throw _ => ~ (room cwd suffix fs /\ tags_end pos l <= len data)
       | _ => False
       end) fs.
  Proof.
    induction l as [|h l IH]; intros pos fuel count fs HT Hf Hp Ho; destruct fuel as [|fuel]; try lia; cbn [split_tags];
      apply traced_bind; apply traced_on with (data := data); try apply Ho; cbv zeta; cbn [s_pos s_exc s_state].
    - rewrite looking_at_nothing by exact HT. cbn [fst snd bind]. apply traced_ret. cbn [tags_end].
      split; [exact Ho|]. split; [exact Hp|]. split; [reflexivity|]. split; [|auto].
      intros i h Hi. now destruct i.
    - destruct HT as (EP & HH & HT). rewrite (looking_at_header _ _ _ _ _ _ _ _ HH). cbn [fst snd bind i_size].
      apply traced_bind. assert (HP : is_piece suffix (tag_piece count suffix)) by (left; eauto).
      pose proof (piece_traced (tag_piece count suffix) pos (10 + hd_size h) fs HP (Hk count) Ho) as [T1 T2].
      split; [exact T1|]. destruct T2 as [T2 T3]. unfold tag_piece in T1, T2, T3. set (r := snd (xfer_bytes cwd k _ _ _ fs)) in *. destruct (fst r) as [s|x|u|]; [| |elim T3|elim T3].
      + destruct T3 as (A1 & -> & A3 & A4 & A5).
        assert (HL : pos + (10 + hd_size h) <= len data) by (destruct (slice_short _ _ A1); lia).
        replace (pos + (10 + hd_size h)) with (pos + 10 + hd_size h) in * by lia.
        pose proof (IH (pos + 10 + hd_size h) fuel (count + 1) (snd r) HT ltac:(cbn in Hf; lia) HL T2) as [B1 B2].
        split; [exact B1|]. destruct B2 as [B2 B3]. split; [exact B2|].
        set (r2 := snd (split_tags _ _ _ _ _ _ _)) in *. cbn [tags_end].
        destruct (fst r2) as [s|x|u|]; [| |exact B3|exact B3].
        * destruct B3 as (C1 & C2 & C3 & C4 & C5). split; [exact C1|]. split; [exact C2|].
          split; [|split].
          -- intros [|i] h' Hi; cbn [nth_error] in Hi.
             ++ injection Hi as <-. cbn [N.of_nat]. rewrite N.add_0_r, C4.
                ** rewrite EP. exact A3.
                ** intros i Hi. apply piece_key; [exact HP|left; eauto|]. intros E. apply tag_piece_inj in E. lia.
             ++ replace (count + N.of_nat (S i)) with (count + 1 + N.of_nat i) by lia. now apply C3.
          -- intros j Hj. rewrite C4 by (intros i Hi; apply Hj; lia). apply A4. apply (Hj count). lia.
          -- intros HR. apply C5, A5, HR.
        * intros [HR HE]. apply B3. split; [apply A5, HR|exact HE].
      + split; [exact T2|]. intros [HR HE]. apply T3. split; [exact HR|]. cbn [tags_end] in HE.
        pose proof (tags_end_ge l (pos + 10 + hd_size h)) as GE. apply slice_len. lia.
  Qed.

End Split.

Lemma find_start (data : bytes) : v1i_start (v1_find data) = v1_start data /\ v1i_end (v1_find data) = len data /\ v1_start data <= len data.
Proof.
  unfold v1_find, v1_start. destruct (_ && _); [cbn; lia|]. destruct (_ && _); cbn; lia.
Qed.

Lemma wrap_sub (data : bytes) a b : len data < 2 ^ 63 -> a <= len data -> wrap64 (a + 2 ^ 64 - b) = if b <=? a then a - b else wrap64 (a + 2 ^ 64 - b).
Proof.
  intros Hlen H. destruct (N.leb_spec b a); [|reflexivity]. unfold wrap64.
  replace (a + 2 ^ 64 - b) with (a - b + 1 * 2 ^ 64) by lia. rewrite N.mod_add by lia. apply N.mod_small. lia.
Qed.
Lemma wrap_neg (data : bytes) a b : len data < 2 ^ 63 -> a < b -> b <= len data -> wrap64 (a + 2 ^ 64 - b) = a + 2 ^ 64 - b.
Proof. intros Hlen H1 H2. unfold wrap64. apply N.mod_small. lia. Qed.
