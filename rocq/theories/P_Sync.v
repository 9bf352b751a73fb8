(** * C81: unsynchronisation of the tags that are saved. *)
From Verif Require Import Base M_Payload M_Frame M_Tag22 M_Tag23 M_Tag24 M_Read M_Tagset S_Unsync S_Tag24 S_Tagset S_Sync L_Sync.
#[local] Open Scope N_scope.

Definition ex_zlib : zlib := mkZlib (fun b => Some b) (fun b _ => Some b) (fun _ _ => 0).
Definition ex_c (id : string) (b : bytes) : cframe := new_frame (mkFrame (B id) no_flags (BUnknown b)).
Definition ex_f := [ex_c "XAAA" [1; 255; 224; 7; 255]; ex_c "XBBB" [255; 251; 144; 255]].
Definition ex_g := [ex_c "XAAA" [1; 255; 224; 7]; ex_c "XBBB" [5; 255; 200]].
Definition ex_h := [ex_c "XAAA" [1; 2; 3]; ex_c "XBBB" [5; 255; 251]].
Definition ex_22 := mkTag22 None false 4 [ex_c "XAA" [1; 255; 224; 7]].
Lemma ex_bytes l : forallb (fun x => x <? 256) l = true -> is_bytes l.
Proof. intros H. unfold is_bytes. apply Forall_forall. intros x Hx. rewrite forallb_forall in H. apply N.ltb_lt. now apply H. Qed.
Lemma ex_ordinary z t id b : match B id with x :: _ => x <? 128 | [] => false end = true ->
  (forall w, wire_of z t (mkFrame (B id) no_flags (BUnknown b)) = Ok w -> is_bytes w) -> ordinary z t (ex_c id b).
Proof.
  intros H HW. split; [|split; [exact HW|left; reflexivity]]. destruct (B id) as [|x r] eqn:E; [discriminate|]. exists x, r.
  split; [exact E|now apply N.ltb_lt].
Qed.

Ltac ord := repeat (apply Forall_cons; [apply ex_ordinary; [reflexivity|]; vm_compute; let E := fresh in intros ? E; injection E as <-; apply ex_bytes; reflexivity|]); apply Forall_nil.

(** Always: no false sync in the bytes of an ID3v2.3 tag without extended header or
    of an ID3v2.4 tag, from the first byte of the header to the last. *)
Theorem C81_always_partial : forall z t b t', recent t -> Forall (ordinary z t) (frames_of t) ->
  emit z Always t = Ok (b, t') -> no_false_sync b.
Proof. exact always_clear. Qed.
Print Assumptions C81_always_partial.
Example C81_always_nontrivial :
  exists t, recent t /\ Forall (ordinary ex_zlib t) (frames_of t) /\ t = A23 (mkTag23 None false None 4 ex_f) /\
  exists t', emit ex_zlib Always t = Ok ([73; 68; 51; 3; 0; 128; 0; 0; 0; 35] ++ B "XAAA" ++ [0; 0; 0; 5; 0; 0; 1; 255; 0; 224; 7; 255]
    ++ B "XBBB" ++ [0; 0; 0; 4; 0; 0; 255; 0; 251; 144; 255] ++ [0; 0; 0; 0], t').
Proof.
  eexists. split; [|split; [|split; [reflexivity|]]]; [reflexivity| |eexists; vm_compute; reflexivity].
  ord.
Qed.

(** Never: the frames stand in the tag as they are. *)
Theorem C81_never_partial : forall z t b t', recent t -> Forall (ordinary z t) (frames_of t) -> emit z Never t = Ok (b, t') ->
  exists h x ws ft, Forall2 (fun c w => wire_of z t (c_frame c) = Ok w) (frames_of t) ws /\ len h = 10 /\
    b = h ++ x ++ concat ws ++ repeatN 0 (any_padding t) ++ ft /\
    (match t with A24 t0 => match t4_ext t0 with Some y => ext_wire24 y = Ok x | None => x = [] end | _ => x = [] end).
Proof.
  intros z t b t' HR HO H. apply (verbatim z t b t' Never (recent_sound t HR) HO H). destruct t; [elim HR|reflexivity|reflexivity].
Qed.
Print Assumptions C81_never_partial.
Example C81_never_nontrivial :
  exists t, recent t /\ Forall (ordinary ex_zlib t) (frames_of t) /\ t = A23 (mkTag23 None false None 4 ex_f) /\
  exists t', emit ex_zlib Never t = Ok ([73; 68; 51; 3; 0; 0; 0; 0; 0; 33] ++ B "XAAA" ++ [0; 0; 0; 5; 0; 0; 1; 255; 224; 7; 255]
    ++ B "XBBB" ++ [0; 0; 0; 4; 0; 0; 255; 251; 144; 255] ++ [0; 0; 0; 0], t').
Proof.
  eexists. split; [|split; [|split; [reflexivity|]]]; [reflexivity| |eexists; vm_compute; reflexivity].
  ord.
Qed.

(** As needed: an ff is followed by at most e9 in what becomes of an ID3v2.3 tag. *)
Theorem C81_needed_partial : forall z t b t', t3_ext t = None -> Forall (ordinary z (A23 t)) (t3_frames t) ->
  emit z AsNeeded (A23 t) = Ok (b, t') -> ff_upto 233 b.
Proof. intros z t b t' HR HO H. exact (needed_most z (A23 t) b t' HR I HO H). Qed.
Print Assumptions C81_needed_partial.
(** e0 to e9 pass: a tag in which nothing else would need it is not unsynchronised. *)
Theorem C81_missed_refuted : forall z t b t' c w i, t3_ext t = None -> Forall (ordinary z (A23 t)) (t3_frames t) ->
  Forall (fun c => forall w, wire23 z (c_frame c) = Ok w -> ff_upto 233 w /\ last w 0 <> 255) (t3_frames t) ->
  In c (t3_frames t) -> wire23 z (c_frame c) = Ok w -> false_sync_at w i ->
  emit z AsNeeded (A23 t) = Ok (b, t') -> exists j, false_sync_at b j.
Proof. intros z t b t' c w i H1 H2 H3 H4 H5 H6 H. exact (missed z t b t' c w i H1 H2 H H3 H4 H5 H6). Qed.
Print Assumptions C81_missed_refuted.
Example C81_needed_nontrivial :
  exists t, t3_ext t = None /\ Forall (ordinary ex_zlib (A23 t)) (t3_frames t) /\ t = mkTag23 None false None 4 ex_f /\
  exists t' b', emit ex_zlib AsNeeded (A23 t) = Ok ([73; 68; 51; 3; 0; 128; 0; 0; 0; 35] ++ b', t').
Proof.
  eexists. split; [|split; [|split; [reflexivity|]]]; [reflexivity| |eexists; eexists; vm_compute; reflexivity].
  ord.
Qed.
Example C81_missed_nontrivial : let t := mkTag23 None false None 4 ex_g in
  Forall (ordinary ex_zlib (A23 t)) (t3_frames t) /\
  Forall (fun c => forall w, wire23 ex_zlib (c_frame c) = Ok w -> ff_upto 233 w /\ last w 0 <> 255) (t3_frames t) /\
  (exists w, wire23 ex_zlib (c_frame (ex_c "XAAA" [1; 255; 224; 7])) = Ok w /\ false_sync_at w 11) /\
  exists t' b', emit ex_zlib AsNeeded (A23 t) = Ok ([73; 68; 51; 3; 0; 0; 0; 0; 0; 31] ++ b', t').
Proof.
  intros t. split; [|split; [|split]].
  - ord.
  - repeat constructor; vm_compute in H; injection H as <-; try discriminate; intros i y; do 16 (destruct i as [|i]; [cbn; intros A; try discriminate; intros E; try discriminate; injection E as <-; lia|]); intros A; destruct i; discriminate.
  - eexists. split; [vm_compute; reflexivity|]. split; [reflexivity|]. eexists. split; [reflexivity|lia].
  - eexists. eexists. vm_compute. reflexivity.
Qed.

(** As needed, ID3v2.4: one frame that does not need it keeps all others from it. *)
Theorem C81_needed24_refuted : forall z t b t' c0 w0 c w i, ext_simple (t4_ext t) -> Forall (ordinary z (A24 t)) (t4_frames t) ->
  In c0 (t4_frames t) -> wire24 z (c_frame c0) = Ok w0 -> no_false_sync w0 -> last w0 0 <> 255 ->
  In c (t4_frames t) -> wire24 z (c_frame c) = Ok w -> false_sync_at w i ->
  emit z AsNeeded (A24 t) = Ok (b, t') -> exists j, false_sync_at b j.
Proof. intros z t b t' c0 w0 c w i H1 H2 H3 H4 H5 H6 H7 H8 H9 H. exact (some_quiet z t b t' c0 w0 c w i H1 H2 H H3 H4 H5 H6 H7 H8 H9). Qed.
Print Assumptions C81_needed24_refuted.
Example C81_needed24_nontrivial : let t := mkTag24 None false false None 4 ex_h in
  Forall (ordinary ex_zlib (A24 t)) (t4_frames t) /\
  (exists w, wire24 ex_zlib (c_frame (ex_c "XAAA" [1; 2; 3])) = Ok w /\ no_false_sync w /\ last w 0 <> 255) /\
  (exists w, wire24 ex_zlib (c_frame (ex_c "XBBB" [5; 255; 251])) = Ok w /\ false_sync_at w 11) /\
  exists t' b', emit ex_zlib AsNeeded (A24 t) = Ok ([73; 68; 51; 4; 0; 0; 0; 0; 0; 34] ++ b', t').
Proof.
  intros t. split; [|split; [|split]].
  - ord.
  - eexists. split; [vm_compute; reflexivity|]. split; [|discriminate]. intros i [A _]. revert A. do 13 (destruct i as [|i]; [discriminate|]). destruct i; discriminate.
  - eexists. split; [vm_compute; reflexivity|]. split; [reflexivity|]. eexists. split; [reflexivity|lia].
  - eexists. eexists. vm_compute. reflexivity.
Qed.

(** ID3v2.2 has it the wrong way round: always leaves every false sync where it is ... *)
Theorem C81_always22_refuted : forall z t b t' c w i, Forall (ordinary z (A22 t)) (t2_frames t) ->
  In c (t2_frames t) -> wire22 (c_frame c) = Ok w -> false_sync_at w i ->
  emit z Always (A22 t) = Ok (b, t') -> exists j, false_sync_at b j.
Proof. intros z t b t' c w i H1 H2 H3 H4 H. exact (stays z (A22 t) b t' Always c w i I H1 H eq_refl H2 H3 H4). Qed.
Print Assumptions C81_always22_refuted.
(** ... never breaks them all. *)
Theorem C81_never22_refuted : forall z t b t', Forall (ordinary z (A22 t)) (t2_frames t) ->
  emit z Never (A22 t) = Ok (b, t') -> no_false_sync b.
Proof. exact never22. Qed.
Print Assumptions C81_never22_refuted.
Example C81_22_nontrivial :
  Forall (ordinary ex_zlib (A22 ex_22)) (t2_frames ex_22) /\
  (exists w, wire22 (c_frame (ex_c "XAA" [1; 255; 224; 7])) = Ok w /\ false_sync_at w 7) /\
  (exists t', emit ex_zlib Always (A22 ex_22) = Ok ([73; 68; 51; 2; 0; 128; 0; 0; 0; 14] ++ B "XAA" ++ [0; 0; 4; 1; 255; 224; 7; 0; 0; 0; 0], t')) /\
  (exists t', emit ex_zlib Never (A22 ex_22) = Ok ([73; 68; 51; 2; 0; 0; 0; 0; 0; 15] ++ B "XAA" ++ [0; 0; 4; 1; 255; 0; 224; 7; 0; 0; 0; 0], t')).
Proof.
  split; [|split; [|split]].
  - ord.
  - eexists. split; [vm_compute; reflexivity|]. split; [reflexivity|]. eexists. split; [reflexivity|lia].
  - eexists. vm_compute. reflexivity.
  - eexists. vm_compute. reflexivity.
Qed.

(** The extended header of an ID3v2.3 tag is left out of it. *)
Theorem C81_ext_refuted : forall z t b t' x i, t3_ext t = Some x -> x_crc x = None -> x_dirty x = true ->
  false_sync_at (ext_wire23 x) i -> emit z Always (A23 t) = Ok (b, A23 t') -> exists j, false_sync_at b j.
Proof. intros z t b t' x i H1 H2 H3 H4 H. exact (ext_untouched z t b t' x H H1 H2 H3 i H4). Qed.
Print Assumptions C81_ext_refuted.
Example C81_ext_nontrivial : let x := mkExt 65505 None true [] [] 0 in
  false_sync_at (ext_wire23 x) 8 /\ exists t' b', emit ex_zlib Always (A23 (mkTag23 None false (Some x) 4 ex_g)) = Ok (b', A23 t').
Proof.
  intros x. split.
  - split; [reflexivity|]. exists 225. split; [reflexivity|lia].
  - eexists. eexists. vm_compute. reflexivity.
Qed.

(** The mark in the header: set for ID3v2.3 exactly if the frames are unsynchronised
    or the tag was marked before ... *)
Theorem C81_mark_partial : forall z m t b t', m <> AsNeeded -> t3_ext t = None -> Forall (ordinary z (A23 t)) (t3_frames t) ->
  emit z m (A23 t) = Ok (b, t') -> (says_unsync b = true <-> m = Always \/ t3_unsync t = Some true).
Proof.
  intros z m t b t' HN HS HO H. destruct (mark_l z m (A23 t) b t' HS HO H) as (u & U1 & U2 & ->).
  destruct (t3_unsync t) as [[|]|], m; try (rewrite U1 by reflexivity); try (rewrite U2 by reflexivity); cbn; split; intros X; try discriminate; auto; try (destruct X; discriminate); elim HN; reflexivity.
Qed.
Print Assumptions C81_mark_partial.
Example C81_mark_nontrivial : let t := mkTag23 None false None 4 ex_f in
  Forall (ordinary ex_zlib (A23 t)) (t3_frames t) /\ exists t' b', emit ex_zlib Always (A23 t) = Ok (b', t') /\ says_unsync b' = true.
Proof.
  intros t. split.
  - ord.
  - eexists. eexists. split; [vm_compute; reflexivity|reflexivity].
Qed.
(** ... for ID3v2.4 only if the tag was marked before: a reader is not told. *)
Theorem C81_mark24_refuted : forall z m t b t', ext_simple (t4_ext t) -> Forall (ordinary z (A24 t)) (t4_frames t) ->
  emit z m (A24 t) = Ok (b, t') -> (says_unsync b = true <-> t4_unsync t = Some true).
Proof.
  intros z m t b t' HS HO H. destruct (mark_l z m (A24 t) b t' HS HO H) as (u & _ & _ & ->).
  destruct (t4_unsync t) as [[|]|]; split; intros X; try discriminate; reflexivity.
Qed.
Print Assumptions C81_mark24_refuted.
Example C81_mark24_nontrivial : let t := mkTag24 None false false None 4 ex_h in
  Forall (ordinary ex_zlib (A24 t)) (t4_frames t) /\ exists t' b', emit ex_zlib Always (A24 t) = Ok ([73; 68; 51; 4; 0; 0] ++ b', t') /\ In 0 b' /\
  exists p q, b' = p ++ [5; 255; 0; 251] ++ q.
Proof.
  intros t. split.
  - ord.
  - eexists. eexists. split; [vm_compute; reflexivity|]. split; [left; reflexivity|].
    eexists [0; 0; 0; 35; 88; 65; 65; 65; 0; 0; 0; 3; 0; 0; 1; 2; 3; 88; 66; 66; 66; 0; 0; 0; 3; 0; 0]. eexists. reflexivity.
Qed.
