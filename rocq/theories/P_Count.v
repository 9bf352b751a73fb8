(** * C100: what payloads say of the syncs in them. *)
From Verif Require Import Base M_Unsync S_Unsync L_Unsync M_Ints M_Payload M_Cloud M_Count S_Count L_Count.

(** A play count's [needs_unsynchronisation] is the number of false syncs in what
    it writes, but for those with a second byte from e0 to e9; and with those, the
    size it announces for the unsynchronised form is the size of that form. *)
Theorem C100_play_count_partial : forall c : bytes, is_bytes c ->
  syncs_pcnt c true + low_syncs c = false_syncs c /\
  serial_pcnt c true + low_syncs c = len (unsynchronise c false).
Proof. intros c H. exact (conj (pcnt_true c) (pcnt_size c H)). Qed.
Print Assumptions C100_play_count_partial.
Example C100_play_count_nontrivial : is_bytes [255; 254; 255; 225; 255; 0] /\
  syncs_pcnt [255; 254; 255; 225; 255; 0] true = 1 /\ low_syncs [255; 254; 255; 225; 255; 0] = 1 /\
  false_syncs [255; 254; 255; 225; 255; 0] = 2 /\ serial_pcnt [255; 254; 255; 225; 255; 0] true = 8.
Proof. split; [repeat constructor|]. vm_compute. repeat split. Qed.

(** The same for identifiers, private frames, popularimeters and described text,
    where moreover the size is one too small if the string before the terminator
    ends with ff, which the terminator turns into a pair to be protected. *)
Theorem C100_ufid_partial : forall u : ufid, is_bytes (write_ufid u) ->
  syncs_ufid u true + low_syncs (write_ufid u) = false_syncs (write_ufid u) /\
  serial_ufid u true + low_syncs (write_ufid u) + ends_ff (uf_owner u)
    = len (unsynchronise (write_ufid u) false).
Proof. intros u H. exact (conj (ufid_true u) (ufid_size u H)). Qed.
Print Assumptions C100_ufid_partial.
Example C100_ufid_nontrivial : let u := mkUfid [97; 255] [255; 251; 255; 224] in
  is_bytes (write_ufid u) /\ syncs_ufid u true = 1 /\ low_syncs (write_ufid u) = 1 /\ ends_ff (uf_owner u) = 1 /\
  serial_ufid u true = 8 /\ len (unsynchronise (write_ufid u) false) = 10.
Proof. split; [repeat constructor|]. vm_compute. repeat split. Qed.

Theorem C100_private_partial : forall p : priv, is_bytes (write_priv p) ->
  syncs_priv p true + low_syncs (write_priv p) = false_syncs (write_priv p) /\
  serial_priv p true + low_syncs (write_priv p) + ends_ff (pr_email p)
    = len (unsynchronise (write_priv p) false).
Proof. intros p H. exact (conj (priv_true p) (priv_size p H)). Qed.
Print Assumptions C100_private_partial.
Example C100_private_nontrivial : let p := mkPriv [97; 255] [255; 251; 255; 224] in
  is_bytes (write_priv p) /\ syncs_priv p true = 1 /\ false_syncs (write_priv p) = 2.
Proof. split; [repeat constructor|]. vm_compute. repeat split. Qed.

Theorem C100_popularimeter_partial : forall p : popm, is_bytes (write_popm p) ->
  syncs_popm p true + low_syncs (write_popm p) = false_syncs (write_popm p) /\
  serial_popm p true + low_syncs (write_popm p) + ends_ff (po_email p)
    = len (unsynchronise (write_popm p) false).
Proof. intros p H. exact (conj (popm_true p) (popm_size p H)). Qed.
Print Assumptions C100_popularimeter_partial.
Example C100_popularimeter_nontrivial : let p := mkPopm [97] 255 [255; 250] in
  is_bytes (write_popm p) /\ syncs_popm p true = 2 /\ serial_popm p true = 7.
Proof. split; [repeat constructor|]. vm_compute. repeat split. Qed.

Theorem C100_user_text_partial : forall t : txxx, is_bytes (write_txxx t) -> ud_cbnil t = 1 \/ ud_cbnil t = 2 ->
  syncs_txxx t true + low_syncs (write_txxx t) = false_syncs (write_txxx t) /\
  serial_txxx t true + low_syncs (write_txxx t) + ends_ff (ud_unicode t :: ud_desc t)
    = len (unsynchronise (write_txxx t) false).
Proof. intros t H K. exact (conj (txxx_true t) (txxx_size t H K)). Qed.
Print Assumptions C100_user_text_partial.
Example C100_user_text_nontrivial : let t := mkTxxx 2 1 [255; 254; 97; 0] [255; 254; 98; 0] in
  is_bytes (write_txxx t) /\ syncs_txxx t true = 2 /\ serial_txxx t true = 13.
Proof. split; [repeat constructor|]. vm_compute. repeat split. Qed.

(** So the size is wrong for every identifier whose owner ends with ff: less than
    the unsynchronised form takes. *)
Theorem C100_size_refuted : forall (owner id : bytes), is_bytes (owner ++ [0] ++ id) ->
  last owner 0 = 255 ->
  serial_ufid (mkUfid owner id) true < len (unsynchronise (owner ++ [0] ++ id) false).
Proof.
  intros owner id H L. pose proof (ufid_size (mkUfid owner id) H) as E. cbn [uf_owner] in E.
  assert (Z : ends_ff owner = 1) by (unfold ends_ff; rewrite L; reflexivity).
  rewrite Z in E. change (write_ufid (mkUfid owner id)) with (owner ++ [0] ++ id) in E.
  clear - E. lia.
Qed.
Print Assumptions C100_size_refuted.
Example C100_size_refuted_nontrivial : is_bytes ([109; 255] ++ [0] ++ [1]) /\ last [109; 255] 0 = 255.
Proof. split; [repeat constructor|reflexivity]. Qed.

(** An encryption method announces one byte more than it writes, and one less if
    the method is ff and the data begin with 00. *)
Theorem C100_encryption_partial : forall (e : encr) (m : N) (w : bytes),
  en_method e = Some m -> write_encr e = Ok w -> is_bytes w ->
  (exists n, syncs_encr e true = Ok n /\ n + low_syncs w = false_syncs w) /\
  (exists n, serial_encr e true = Ok n /\
     n + low_syncs w + crosses (fun x y => (x =? 255) && (y =? 0)) [m] (en_data e)
     = len (unsynchronise w false) + 1).
Proof. intros e m w E W H. exact (conj (encr_true e w W) (encr_size e m w E W H)). Qed.
Print Assumptions C100_encryption_partial.
Example C100_encryption_nontrivial : let e := mkEncr [97; 255] (Some 255) [0; 255; 254] in
  write_encr e = Ok [97; 255; 255; 0; 255; 254] /\ syncs_encr e true = Ok 2 /\ serial_encr e true = Ok 9 /\
  len (unsynchronise [97; 255; 255; 0; 255; 254] false) = 9.
Proof. vm_compute. repeat split. Qed.

(** A comment with a language, counted: what is counted across the terminator,
    from the end of the description to the beginning of the text, is too much. *)
Theorem C100_comment_partial : forall (c : comm) (u : N) (lg w : bytes),
  co_unicode c = Some u -> co_lang c = Some lg -> length lg = 3%nat -> co_cbnil c = 1 \/ co_cbnil c = 2 ->
  (co_text c = [] -> co_desc c = []) -> write_comm c = Ok w -> is_bytes w ->
  (exists n, syncs_comm c true = Ok n /\
     n + low_syncs w = false_syncs w + crosses taken_false (co_desc c) (co_text c)) /\
  (exists n, serial_comm c true = Ok n /\
     n + low_syncs w + ends_ff (lg ++ co_desc c)
     = len (unsynchronise w false) + crosses taken_bare (co_desc c) (co_text c)).
Proof.
  intros c u lg w Hu Hl L K T W H.
  exact (conj (comm_true c u lg w Hu Hl L K T W) (comm_size c u lg w Hu Hl L K T W H)).
Qed.
Print Assumptions C100_comment_partial.
(** An "ÿ" at the end of the description and another at the beginning of the text
    count for a false sync though there is none. *)
Example C100_comment_nontrivial : let c := mkComm 1 (Some 0) (Some [101; 110; 103]) [109; 255] [255; 109] in
  write_comm c = Ok [0; 101; 110; 103; 109; 255; 0; 255; 109] /\ syncs_comm c true = Ok 1 /\
  false_syncs [0; 101; 110; 103; 109; 255; 0; 255; 109] = 0 /\ crosses taken_false (co_desc c) (co_text c) = 1.
Proof. vm_compute. repeat split. Qed.

(** With a description and no text, the first byte of the text is asked for all
    the same: both questions are undefined. *)
Theorem C100_comment_refuted : forall (c : comm) (u : N) (lg : bytes) (x : N) (d : bytes),
  co_unicode c = Some u -> co_lang c = Some lg -> co_desc c = x :: d -> co_text c = [] ->
  syncs_comm c true = UB OutOfBounds /\ serial_comm c true = UB OutOfBounds.
Proof.
  intros c u lg x d Hu Hl D T. unfold serial_comm. rewrite !(comm_ub c u lg _ x d Hu Hl D T). split; reflexivity.
Qed.
Print Assumptions C100_comment_refuted.
Example C100_comment_refuted_nontrivial :
  parse_comm V23 [0; 101; 110; 103; 100; 0] [] = Ok (mkComm 1 (Some 0) (Some [101; 110; 103]) [100] []).
Proof. reflexivity. Qed.

(** Tag clouds in which every key has values, and fewer than ea00 bytes of them. *)
Theorem C100_cloud_partial : forall c : cloud,
  Forall (fun kv => snd kv <> [] /\ values_size (snd kv) < 59904) (tc_tags c) ->
  exists n, syncs_cloud c true = Ok n /\ n + low_syncs (write_cloud c) = false_syncs (write_cloud c).
Proof. exact cloud_true. Qed.
Print Assumptions C100_cloud_partial.
Example C100_cloud_nontrivial : let c := mkCloud [111] [([107; 255; 255], [[255; 240]; [120]])] in
  Forall (fun kv => snd kv <> [] /\ values_size (snd kv) < 59904) (tc_tags c) /\ syncs_cloud c true = Ok 2.
Proof. split; [repeat constructor; discriminate|reflexivity]. Qed.

(** In UTF-8 there is no ff; then, if the values of no key take 255 bytes modulo
    256, the size announced is right. *)
Theorem C100_cloud_size_partial : forall c : cloud,
  ~ In 255 (tc_owner c) -> Forall calm_entry (tc_tags c) ->
  serial_cloud c true = Ok (len (unsynchronise (write_cloud c) false)).
Proof. exact cloud_size. Qed.
Print Assumptions C100_cloud_size_partial.
Example C100_cloud_size_nontrivial : let c := mkCloud [111] [([107], [[195; 191]; [120]])] in
  ~ In 255 (tc_owner c) /\ Forall calm_entry (tc_tags c) /\ serial_cloud c true = Ok 14.
Proof.
  split; [intros [Q|[]]; discriminate Q|]. split; [|reflexivity].
  constructor; [|constructor]. split; [intros [Q|[]]; discriminate Q|].
  split; [|split; [reflexivity|discriminate]].
  constructor; [intros [Q|[Q|[]]]; discriminate Q|]. constructor; [intros [Q|[]]; discriminate Q|constructor].
Qed.

(** At 255 bytes of values the size is one too large: the count is looked at in
    the machine's byte order, ff 00 00 00, but written the other way round. *)
Theorem C100_cloud_size_refuted : exists c : cloud,
  is_bytes (write_cloud c) /\ ~ In 255 (tc_owner c) /\
  Forall (fun kv => ~ In 255 (fst kv) /\ Forall (fun v => ~ In 255 v) (snd kv)) (tc_tags c) /\
  exists n, serial_cloud c true = Ok n /\ n = len (unsynchronise (write_cloud c) false) + 1.
Proof.
  exists (mkCloud [111] [([107], [repeat 97 254])]).
  split; [unfold is_bytes; vm_compute; repeat constructor|].
  split; [intros [Q|[]]; discriminate Q|]. split.
  - constructor; [|constructor]. split; [intros [Q|[]]; discriminate Q|]. constructor; [|constructor].
    intros Q. apply repeat_spec in Q. discriminate Q.
  - eexists. split; [vm_compute; reflexivity|]. vm_compute. reflexivity.
Qed.
Print Assumptions C100_cloud_size_refuted.
(** From ff ea bytes of values on, the count itself holds a false sync, which goes
    unnoticed. *)
Theorem C100_cloud_refuted : exists c : cloud,
  (forall kv v, In kv (tc_tags c) -> In v (snd kv) -> ~ In 255 v) /\
  syncs_cloud c true = Ok 0 /\ low_syncs (write_cloud c) = 0 /\ false_syncs (write_cloud c) = 1.
Proof.
  assert (Z : exists s : bytes, len s = 65514 /\ ~ In 255 s).
  { exists (repeat 97 (N.to_nat 65514)). split; [unfold len; rewrite repeat_length; apply N2Nat.id|].
    intros Q. apply repeat_spec in Q. discriminate Q. }
  destruct Z as (s & L & R). exists (mkCloud [111] [([107], [s])]).
  assert (E : values_size [s] = 65515) by (unfold values_size; cbn [fold_right]; rewrite L; reflexivity).
  assert (B : be32 (65515 mod 2 ^ 32) = [0; 0; 255; 235]) by reflexivity.
  assert (W : write_cloud (mkCloud [111] [([107], [s])])
    = [1; 111; 0; 107; 0; 0; 0; 255; 235] ++ s ++ [0]).
  { unfold write_cloud. cbn [tc_tags flat_map]. unfold write_entry. cbn [fst snd]. rewrite E, B.
    cbn [flat_map]. rewrite !List.app_nil_r. reflexivity. }
  assert (P : forall P, starts_ff P -> pr P ([1; 111; 0; 107; 0; 0; 0; 255; 235] ++ s ++ [0])
    = pr P [1; 111; 0; 107; 0; 0; 0; 255; 235] + jn P 235 (s ++ [0])).
  { intros P HP. rewrite (pr_app' P _ _ HP). cbn [last]. rewrite (pr_no_ff P (s ++ [0]) HP).
    - apply N.add_0_r.
    - intros Q. apply in_app_or in Q as [Q|[Q|[]]]; [exact (R Q)|discriminate Q]. }
  assert (J : forall P, starts_ff P -> jn P 235 (s ++ [0]) = 0).
  { intros P0 HP. destruct (s ++ [0]) as [|y r]; [reflexivity|]. cbn [jn].
    destruct (P0 235 y) eqn:Q; [|reflexivity]. apply HP in Q. discriminate Q. }
  split.
  { intros kv v [<-|[]] [<-|[]]. exact R. }
  split.
  { unfold syncs_cloud. cbn [tc_tags syncs_entries tc_owner]. unfold syncs_entry. cbn [fst snd]. rewrite E.
    cbn [fold_right]. rewrite (count_no_ff true _ R). reflexivity. }
  split.
  - unfold low_syncs. rewrite places_pr, W. exact (eq_trans (P _ low_ff) (f_equal (N.add _) (J _ low_ff))).
  - unfold false_syncs. rewrite places_pr, W. exact (eq_trans (P _ fs_ff) (f_equal (N.add _) (J _ fs_ff))).
Qed.
Print Assumptions C100_cloud_refuted.

(** A key without values, which [xtag] allows: the question is undefined. *)
Theorem C100_cloud_empty_refuted : forall (c : cloud) (k : bytes), In (k, []) (tc_tags c) ->
  exists why, syncs_cloud c true = UB why.
Proof. exact cloud_ub. Qed.
Print Assumptions C100_cloud_empty_refuted.
Example C100_cloud_empty_nontrivial : cloud_from_text [111] [107] = Ok (mkCloud [111] [([107], [])]).
Proof. vm_compute. reflexivity. Qed.

(** When the form without unsynchronisation is asked for, the size announced is
    the number of bytes that [write()] gives, but for encryption methods: one more. *)
Theorem C100_plain_partial :
  (forall c, serial_pcnt c false = len c) /\
  (forall u, serial_ufid u false = len (write_ufid u)) /\
  (forall p, serial_priv p false = len (write_priv p)) /\
  (forall p, serial_popm p false = len (write_popm p)) /\
  (forall t, ud_cbnil t = 1 \/ ud_cbnil t = 2 -> serial_txxx t false = len (write_txxx t)) /\
  (forall e w, write_encr e = Ok w -> serial_encr e false = Ok (len w + 1)) /\
  (forall c w lg, co_lang c = Some lg -> len lg = 3 -> co_cbnil c = 1 \/ co_cbnil c = 2 -> write_comm c = Ok w -> serial_comm c false = Ok (len w)) /\
  (forall c, serial_cloud c false = Ok (len (write_cloud c))).
Proof.
  repeat match goal with |- _ /\ _ => split end.
  - intros c. unfold serial_pcnt. lia.
  - intros u. unfold serial_ufid, size_ufid, write_ufid. rewrite !len_app. change (len [0]) with 1. lia.
  - intros p. unfold serial_priv, size_priv, write_priv. rewrite !len_app. change (len [0]) with 1. lia.
  - intros p. unfold serial_popm, size_popm, write_popm. rewrite !len_app. change (len [0]) with 1. change (len [po_rating p]) with 1. lia.
  - intros t K. unfold serial_txxx, size_txxx, write_txxx. rewrite !len_app. change (len [ud_unicode t]) with 1.
    destruct K as [-> | ->]; cbn [N.eqb Pos.eqb]; [change (len [0]) with 1|change (len [0; 0]) with 2]; lia.
  - intros e w W. unfold write_encr in W. destruct (en_method e) as [m|]; [|discriminate W]. apply Ok_inj in W. subst w.
    unfold serial_encr, size_encr. f_equal. rewrite !len_app. change (len [m]) with 1. lia.
  - intros c w lg Hl L K W. unfold write_comm in W. rewrite Hl in W. destruct (co_unicode c) as [u|]; [|discriminate W]. apply Ok_inj in W. subst w.
    unfold serial_comm, size_comm. f_equal. rewrite !len_app. change (len [u]) with 1. rewrite L.
    destruct K as [-> | ->]; [change (len (takeN 1 [0; 0])) with 1|change (len (takeN 2 [0; 0])) with 2]; lia.
  - intros c. unfold serial_cloud. rewrite cloud_len. reflexivity.
Qed.
Print Assumptions C100_plain_partial.
Example C100_plain_nontrivial : let c := mkComm 2 (Some 1) (Some [101; 110; 103]) [255; 254] [255; 254; 65; 0] in
  write_comm c = Ok [1; 101; 110; 103; 255; 254; 0; 0; 255; 254; 65; 0] /\ serial_comm c false = Ok 12 /\ serial_comm c true = Ok 14 /\
  serial_pcnt [255; 255; 0; 0] false = 4 /\ serial_pcnt [255; 255; 0; 0] true = 6.
Proof. vm_compute. repeat split. Qed.
