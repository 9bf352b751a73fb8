(** * Proofs about the names and identifiers of text frames. *)
From Verif Require Import Base M_Payload M_Frame M_TextId S_TextId.

Lemma names_l k : tframe_of_name (tframe_name k) = Ok k.
Proof. destruct k; vm_compute; reflexivity. Qed.

Lemma std_names_l v k id :
  standard_id v k = Some id -> ~ (v = V22 /\ k = tf_tbpm) -> tframe_of_name id = Ok k.
Proof.
  intros E H. destruct v, k; vm_compute in E; try discriminate E;
    injection E as <-; try (vm_compute; reflexivity); exfalso; apply H; split; reflexivity.
Qed.

(** A left inverse of the identifiers, for injectivity. *)
Definition key_of (v : version) (id : bytes) : option tframe :=
  match find (fun k => match frame_id_of v k with Ok i => bytes_eqb i id | _ => false end) all_tframes with
  | Some k => Some k | None => None end.

Lemma key_of_l v k id : frame_id_of v k = Ok id -> key_of v id = Some k.
Proof. intros E. destruct v, k; vm_compute in E; try discriminate E; apply Ok_inj in E; subst id; vm_compute; reflexivity. Qed.

Lemma distinct_l v k1 k2 id : frame_id_of v k1 = Ok id -> frame_id_of v k2 = Ok id -> k1 = k2.
Proof. intros A C. apply key_of_l in A. apply key_of_l in C. congruence. Qed.

Lemma v4_l v k : v <> V22 ->
  frame_id_of v k = Ok (standard_id4 k) /\ kind_of v (standard_id4 k) = KText.
Proof. intros H. destruct v; try congruence; destruct k; vm_compute; split; reflexivity. Qed.

Lemma mem_id_In id l : mem_id id l = true -> In id l.
Proof.
  unfold mem_id. intros H. apply existsb_exists in H. destruct H as (x & I & E).
  destruct (bytes_eqb_spec id x); [subst; exact I|discriminate E].
Qed.

Lemma text_kind4_In v id : v <> V22 -> kind_of v id = KText -> In id text_ids4.
Proof.
  intros H. unfold kind_of.
  assert (G : (if bytes_eqb id (B "COMM") then KComm
      else if bytes_eqb id (B "PCNT") then KCount
      else if bytes_eqb id (B "POPM") then KPopm
      else if bytes_eqb id (B "PRIV") then KPriv
      else if mem_id id text_ids4 then KText
      else if bytes_eqb id (B "UFID") then KUfid
      else if bytes_eqb id (B "ENCR") then KEncr
      else if bytes_eqb id (B "TXXX") then KTxxx
      else if bytes_eqb id (B "XTAG") then KCloud
      else KUnknown) = KText -> In id text_ids4).
  { destruct (bytes_eqb id (B "COMM")); [discriminate|].
    destruct (bytes_eqb id (B "PCNT")); [discriminate|].
    destruct (bytes_eqb id (B "POPM")); [discriminate|].
    destruct (bytes_eqb id (B "PRIV")); [discriminate|].
    destruct (mem_id id text_ids4) eqn:E; [intros _; apply mem_id_In; exact E|].
    destruct (bytes_eqb id (B "UFID")); [discriminate|].
    destruct (bytes_eqb id (B "ENCR")); [discriminate|].
    destruct (bytes_eqb id (B "TXXX")); [discriminate|].
    destruct (bytes_eqb id (B "XTAG")); discriminate. }
  destruct v; [congruence|exact G|exact G].
Qed.

Lemma in_text4 id : In id text_ids4 -> exists k, frame_id4_of k = Ok id.
Proof.
  intros H. repeat (destruct H as [<-|H]); [..|destruct H].
  all: match goal with |- exists k, _ = Ok ?i =>
         let r := eval vm_compute in (key_of V23 i) in
         match r with Some ?k => exists k; vm_compute; reflexivity end end.
Qed.

Lemma complete4_l v id : v <> V22 -> (kind_of v id = KText <-> exists k, frame_id_of v k = Ok id).
Proof.
  intros H. split.
  - intros K. apply text_kind4_In in K; [|exact H]. apply in_text4 in K. destruct K as (k & E).
    exists k. destruct v; [congruence|exact E|exact E].
  - intros (k & E). destruct (v4_l v k H) as (A & T). rewrite A in E. apply Ok_inj in E. subst id. exact T.
Qed.

Lemma v22_l k : ~ wrong22 k ->
  (forall id, frame_id_of V22 k = Ok id <-> standard_id V22 k = Some id) /\
  (forall id, frame_id_of V22 k = Ok id -> kind_of V22 id = KText).
Proof.
  intros H.
  destruct k; try (exfalso; apply H; unfold wrong22; cbn; tauto); clear H;
  (split; [intros id; split; intros E; vm_compute in E |- *; first [discriminate E | injection E as <-; reflexivity]
          |intros id E; vm_compute in E; first [discriminate E | injection E as <-; vm_compute; reflexivity]]).
Qed.

Lemma wrong22_l k : wrong22 k ->
  exists id, standard_id V22 k = Some id /\ kind_of V22 id = KText /\ frame_id_of V22 k <> Ok id.
Proof.
  intros H. unfold wrong22 in H. cbn in H.
  repeat (destruct H as [<-|H]); [..|destruct H];
  (eexists; split; [reflexivity|]; split; [vm_compute; reflexivity|]; intros E; vm_compute in E; discriminate E).
Qed.

Lemma bpm_l : frame_id_of V22 tf_tbpm = Ok (B "TBM") /\ kind_of V22 (B "TBM") = KUnknown /\
  tframe_of_name (B "TBP") = Throw OutOfRange.
Proof. vm_compute. auto. Qed.
