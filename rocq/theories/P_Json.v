(** * Properties C59 to C61: output in JSON.

    [json_of] (S_Json) reads a JSON text; [frame_object], [tag_object],
    [track_object] and [v1_object] (S_JsonTag) are the objects for frames, tags and
    tracks. *)
From Verif Require Import Base M_Payload M_Cloud M_Csv S_Csv S_Json M_Json S_JsonTag L_Json2 L_Json4.

(** A text printed as a JSON string reads back as that text exactly when its
    control characters are among backspace, tab, line feed, form feed and return. *)
Theorem C60_strings : forall s, json_of (34 :: jescape s ++ [34]) = Some (JStr s) <-> printable s.
Proof. exact string_exact. Qed.
Print Assumptions C60_strings.
Example C60_strings_nontrivial :
  printable (B "say ""hi"" \o/" ++ [9; 200]) /\
  json_of (34 :: jescape (B "a""\" ++ [9; 200]) ++ [34]) = Some (JStr (B "a""\" ++ [9; 200])).
Proof. split; [apply text_printable; reflexivity | reflexivity]. Qed.

(** A number printed is a JSON number, and denotes the number. *)
Theorem C60_numbers : forall n, json_of (number 10 n) = Some (JNum (number 10 n)) /\ as_decimal (number 10 n) = Some n.
Proof. exact number_exact. Qed.
Print Assumptions C60_numbers.
Example C60_numbers_nontrivial : json_of (number 10 4294967296) = Some (JNum (B "4294967296")).
Proof. reflexivity. Qed.

(** The track is printed as an object whose hexadecimal digits are the digest. *)
Theorem C61_track : forall md5, Forall (fun x => x < 256) md5 ->
  exists d, json_of (json_track md5) = Some (track_object d) /\ from_hex d = Some md5.
Proof. exact track_exact. Qed.
Print Assumptions C61_track.
Example C61_track_nontrivial :
  Forall (fun x => x < 256) [0; 9; 255] /\ json_of (json_track [0; 9; 255]) = Some (JObj [(B "md5", JStr (B "0009ff"))]).
Proof. split; [repeat constructor|reflexivity]. Qed.

(** An ID3v2.3 tag is printed as its object if all its frames are of the kinds
    that are printed well and all texts are printable; if not, what is printed
    is not JSON.  Missing: the three misprinted kinds, control characters, the
    unsynchronisation flag (printed as whether the tag says anything of it),
    identifiers to be escaped and sizes from 2^31 on. *)
Theorem C59_tag23_partial : forall t, usual_tag t ->
  (Forall well_printed (j_frames t) ->
     json_of (json_tag23 t) = Some (tag_object (match j_unsync t with Some _ => true | None => false end) t)) /\
  (Exists (fun f => ~ well_printed f) (j_frames t) -> json_of (json_tag23 t) = None).
Proof. exact tag23_exact. Qed.
Print Assumptions C59_tag23_partial.
Definition sample_tag (fs : list fview) : jtag := mkJtag (Some false) 128 335921 100 fs.
Definition sample_frames : list fview :=
  [FText (B "TIT2") 12 (B "Say ""no"""); FDesc (B "COMM") 20 (B "note") (B "a" ++ [10] ++ B "b");
   FPopm (B "POPM") 9 (B "me@x.org") 196 7; FUnknown (B "APIC") 300000].
Example C59_tag23_partial_nontrivial :
  usual_tag (sample_tag sample_frames) /\ Forall well_printed sample_frames /\
  usual_tag (sample_tag [FCount 4 7]) /\ Exists (fun f => ~ well_printed f) [FCount 4 7].
Proof.
  assert (K : forall f, (match f with FText id n _ | FDesc id n _ _ | FPopm id n _ _ _ | FUnknown id n => plain id /\ n < 2 ^ 31 | FCount _ _ => True | _ => False end) -> usual_frame f).
  { intros f H. unfold usual_frame. destruct f; try contradiction; auto. }
  repeat split.
  - unfold usual_tag, sample_tag, sample_frames. cbn [j_frames].
    repeat (constructor; [apply K; repeat split; try lia; apply key_plain; reflexivity|]). constructor.
  - unfold sample_frames, well_printed.
    repeat (constructor; [split; [intros []|]; cbn [frame_texts];
      repeat (constructor; [apply text_printable; reflexivity|]); constructor|]). constructor.
  - constructor; [now apply K | constructor].
  - constructor. intros (M & _). now apply M.
Qed.

(** No ID3v2.3 tag with a file identifier, play count or tag cloud is printed as
    JSON. *)
Theorem C59_kinds_refuted : forall t, usual_tag t -> Exists misprinted (j_frames t) -> json_of (json_tag23 t) = None.
Proof.
  intros t U E. apply tag23_refused; [exact U|]. revert E. apply Exists_impl. intros f M (X & _). exact (X M).
Qed.
Print Assumptions C59_kinds_refuted.
Example C59_kinds_refuted_nontrivial :
  json_of (json_tag23 (sample_tag [FCount 4 7])) = None /\ json_of (json_tag23 (sample_tag [FUfid (B "UFID") 9 (B "o")])) = None.
Proof. split; reflexivity. Qed.

(** A tag that says that it is not unsynchronised is printed as unsynchronised. *)
Theorem C59_unsynchronised_refuted : forall t, usual_tag t -> Forall well_printed (j_frames t) ->
  j_unsync t = Some false -> json_of (json_tag23 t) = Some (tag_object true t).
Proof. intros t U W E. pose proof (tag23_object t U W) as H. rewrite E in H. exact H. Qed.
Print Assumptions C59_unsynchronised_refuted.
Example C59_unsynchronised_refuted_nontrivial :
  j_unsync (sample_tag []) = Some false /\ json_of (json_tag23 (sample_tag [])) = Some (tag_object true (sample_tag [])).
Proof. split; reflexivity. Qed.

(** What is printed for an ID3v2.2 tag is never JSON; with a frame, printing it
    reads beyond a buffer. *)
Theorem C59_tag22_refuted : forall t,
  (match json_tag22 t with Ok s => json_of s = None | _ => True end) /\
  (j_frames t <> [] -> json_tag22 t = UB OutOfBounds).
Proof. intros t. exact (conj (tag22_refused t) (frames22_open t)). Qed.
Print Assumptions C59_tag22_refuted.
Example C59_tag22_refuted_nontrivial :
  (exists s, json_tag22 (mkJtag (Some false) 48 100 80 []) = Ok s) /\ j_frames (sample_tag sample_frames) <> [].
Proof. split; [eexists; reflexivity | discriminate]. Qed.

(** Neither is what is printed for an ID3v2.4 tag; with a frame, printing it reads
    beyond a buffer, or throws, which it does for private and tag cloud frames. *)
Theorem C59_tag24_refuted : forall t,
  (match json_tag24 t with Ok s => json_of s = None | _ => True end) /\
  (j_frames t <> [] -> json_tag24 t = UB OutOfBounds \/ json_tag24 t = Throw OutOfRange) /\
  (forall f, hd_error (j_frames t) = Some f -> (match f with FCloud _ _ _ _ | FPriv _ _ _ => True | _ => False end) ->
     json_tag24 t = Throw OutOfRange).
Proof. intros t. exact (conj (tag24_refused t) (conj (frames24_open t) (frames24_throw t))). Qed.
Print Assumptions C59_tag24_refuted.
Example C59_tag24_refuted_nontrivial :
  (exists s, json_tag24 (mkJtag (Some false) 48 100 80 []) = Ok s) /\
  json_tag24 (sample_tag [FPriv (B "PRIV") 9 (B "me@x.org")]) = Throw OutOfRange.
Proof. split; [eexists; reflexivity | reflexivity]. Qed.

(** An ID3v1 tag is printed as its object exactly when the album needs no escapes
    (it is printed without) and the other texts are printable. *)
Theorem C59_v1_partial : forall t,
  json_of (json_v1 t) = Some (v1_object t) <-> plain (j1_album t) /\ Forall printable (v1_texts t).
Proof. exact v1_exact. Qed.
Print Assumptions C59_v1_partial.
Definition sample_v1 : j1tag :=
  mkJ1 true None (B "Lorca") (B "Pogues") (B "a ""b"" c") 255 (B "Lorca's Novena") (B "1990") (Some 5).
Example C59_v1_partial_nontrivial : json_of (json_v1 sample_v1) = Some (v1_object sample_v1).
Proof. reflexivity. Qed.

(** The dump of a file whose tags are such is the sequence of their objects, with
    that of the track between the ID3v2 tags and the ID3v1 tag. *)
Theorem C59_dump_partial : forall v2 md5 v1,
  Forall (fun t => usual_tag t /\ Forall well_printed (j_frames t)) v2 ->
  (match v1 with Some t => plain (j1_album t) /\ Forall printable (v1_texts t) | None => True end) ->
  exists out, json_dump (map (fun t => (V23, t)) v2) md5 v1 = Ok out /\
    json_stream out =
    Some (map (fun t => tag_object (match j_unsync t with Some _ => true | None => false end) t) v2 ++
          [track_object (flat_map (fun x => width2 (number 16 x)) md5)] ++
          (match v1 with Some t => [v1_object t] | None => [] end)).
Proof. exact dump_shown. Qed.
Print Assumptions C59_dump_partial.
Example C59_dump_partial_nontrivial :
  exists out vs, json_dump [(V23, sample_tag sample_frames); (V23, sample_tag [])] [1; 2] (Some sample_v1) = Ok out /\
    json_stream out = Some vs /\ List.length vs = 4%nat.
Proof. eexists _, _. split; [reflexivity|]. split; [vm_compute; reflexivity | reflexivity]. Qed.
