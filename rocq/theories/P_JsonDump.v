(** * Theorems: the dump command in JSON (C93). *)
From Verif Require Import Base M_Ints M_Stream M_Id3v1 M_Payload M_Cloud M_Frame M_Tag22 M_Tag23 M_Tag24 M_Charset M_Lookup M_Mp3 M_Track M_Read
  M_Tagset M_Process M_Cmds M_Csv M_Report M_Dump M_Row M_Json M_JsonDump S_Ints S_Lookup S_Cmds S_Csv S_Json S_JsonTag S_Lang S_Read S_Tag23 S_Dump S_JsonDump
  L_Dump L_Json L_Json2 L_Json4 L_JsonDump P_Cmds P_Dump.
#[local] Open Scope N_scope.

Definition ex_title : frame := mkFrame (B "TIT2") no_flags (BText (mkText 0 (B "Song"))).
Definition ex_user : frame := mkFrame (B "TXXX") no_flags (BTxxx (mkTxxx 1 0 (B "key") (B "val"))).
Definition ex_popm : frame := mkFrame (B "POPM") no_flags (BPopm (mkPopm (B "me") 200 [1; 2])).
Definition ex_long : frame := mkFrame (B "PCNT") no_flags (BCount [1; 2; 3; 4; 5]).
Definition ex_bytes : bytes := ex_text (B "TIT2") (B "Song") ++ ex_frame4 (B "TXXX") ([0] ++ B "key" ++ [0] ++ B "val") ++ ex_frame4 (B "POPM") (B "me" ++ [0; 200; 1; 2]).
Definition ex_told : bytes := ex_v2 3 ex_bytes ++ [1; 2; 3] ++ ex_old.
Definition ex_tag : anytag := A23 (mkTag23 (Some false) false None 0 [new_frame ex_title; new_frame ex_user; new_frame ex_popm]).
Definition ex_untold : bytes := ex_v2 3 (ex_text (B "TIT2") (B "Song") ++ ex_frame4 (B "PCNT") [1; 2; 3; 4; 5]) ++ [1; 2; 3] ++ ex_old.
Definition ex_tag5 : anytag := A23 (mkTag23 (Some false) false None 0 [new_frame ex_title; new_frame ex_long]).
Lemma one_tag z passes md5 data n t tr v1 : dump_read z passes md5 data = Ok ([(n, t)], tr, v1) ->
  exists h, tags_of z passes data [h] [t] /\ track_of md5 data [h] (tr_size tr) (tr_md5 tr) /\ v1_of data v1.
Proof.
  intros E. apply dump_read_inv in E as (l & ts & T & _ & E & TR & V). pose proof (proj1 (tags_of_unsync _ _ _ _ _ T)) as L.
  destruct l as [|h [|h' l]]; destruct ts as [|t1 [|t2 ts]]; try discriminate L; cbn [combine map] in E; try discriminate E. injection E as _ <-. eauto.
Qed.
Definition ex_v1tag : id3v1_tag :=
  M_Id3v1.mkV1 false true (repeat 0 30) (B "Band" ++ repeat 0 26) (repeat 0 28) 9 [] None None None (B "Song" ++ repeat 0 26) (Some 7) (B "1999").
Example ex_read : dump_read no_zlib 3 ex_sum ex_told = Ok ([(0, ex_tag)], mkTrack [3] 3 (Some (0, 1)), Some ex_v1tag).
Proof. vm_compute. reflexivity. Qed.
Example ex_read5 : dump_read no_zlib 3 ex_sum ex_untold = Ok ([(0, ex_tag5)], mkTrack [3] 3 (Some (0, 1)), Some ex_v1tag).
Proof. vm_compute. reflexivity. Qed.
Example ex_title_says : exists j, frame_says (w_ic ex_world) ex_title j.
Proof.
  eexists. eexists. split; [eapply fj_text with (s := B "Song"); [eexists; split; [reflexivity|vm_compute; reflexivity]|apply plain_printable; now apply key_plain]|].
  split; [now apply key_plain|]. split; reflexivity.
Qed.
Example ex_frames_say : exists js, Forall2 (frame_says (w_ic ex_world)) (shown ex_tag) js.
Proof.
  destruct ex_title_says as (j & J). eexists. constructor; [exact J|]. constructor; [|constructor; [|constructor]].
  - eexists. split; [eapply fj_user with (d := B "key") (t := B "val"); [reflexivity|vm_compute; reflexivity|vm_compute; reflexivity|apply plain_printable; now apply key_plain|apply plain_printable; now apply key_plain]|].
    split; [now apply key_plain|]. split; reflexivity.
  - eexists. split; [eapply fj_popm with (e := B "me"); [reflexivity|right; split; [discriminate|vm_compute; reflexivity]|apply plain_printable; now apply key_plain| |discriminate|discriminate]|].
    + repeat (constructor; [reflexivity|]). constructor.
    + split; [now apply key_plain|]. split; reflexivity.
Qed.
Example ex_v1_says : exists j, v1_says (w_ic ex_world) E_ISO_8859_1 ex_v1tag j.
Proof.
  eexists. exists [], (B "Band"), [], (B "Song"), (B "1999"), [(B "track", jnum 7)], [].
  split; [vm_compute; reflexivity|]. split; [constructor|]. split; [vm_compute; reflexivity|]. split; [apply plain_printable; now apply key_plain|].
  split; [vm_compute; reflexivity|]. split; [apply plain_printable; constructor|]. split; [vm_compute; reflexivity|]. split; [apply plain_printable; now apply key_plain|].
  split; [vm_compute; reflexivity|]. split; [apply plain_printable; now apply key_plain|]. split; [eexists; split; reflexivity|]. split; reflexivity.
Qed.
Example ex_fine : fine E_ISO_8859_1 no_zlib 3 ex_sum ex_world ex_all (ex_dfile ex_told).
Proof.
  split; [eexists; exact ex_read|]. destruct (one_tag _ _ _ _ _ _ _ _ ex_read) as (h & T & TR & V). destruct ex_frames_say as (js & FS). destruct ex_v1_says as (j & J).
  eexists. unfold says, file_says. exists [h], [ex_tag], (Some ex_v1tag). do 5 eexists. split; [exact T|]. split; [exact TR|]. split; [exact V|].
  split; [constructor; [|constructor]|].
  - split; [reflexivity|]. do 3 eexists. split; [vm_compute; reflexivity|]. split; [exact FS|reflexivity].
  - split; [eexists; split; [apply track_said|reflexivity]|]. split; [eexists; split; [exact J|reflexivity]|reflexivity].
Qed.
Example ex_broken : broken_off no_zlib 3 ex_sum ex_world ex_all (ex_dfile ex_untold).
Proof.
  destruct (one_tag _ _ _ _ _ _ _ _ ex_read5) as (h & T & TR & V). do 3 eexists. exists [], ex_tag5, [], [ex_title], ex_long, []. do 2 eexists.
  split; [exact ex_read5|]. split; [exact T|]. split; [reflexivity|]. split; [reflexivity|]. split; [intros x []|]. split; [reflexivity|].
  split; [vm_compute; reflexivity|]. split; [vm_compute; reflexivity|]. split; [intros x [<-|[]]; exact ex_title_says|]. eapply un_count; reflexivity.
Qed.

(** ** C93: what a dump in JSON says *)

(** Whatever the file, the parts asked for and the conversions: if everything can be said
    of the file then a reader of JSON gets that out of what is printed, and nothing
    else: an object for each ID3v2 tag at the beginning, in order, with every frame in
    order and its contents, then one with the digest of the track, then one for the ID3v1
    tag, of those what was asked for.  Missing: that every file is such a file (the
    theorems below), and that the flag for the unsynchronisation is right. *)
Theorem C93_dump_partial : forall e z passes md5 w p f, fine e z passes md5 w p f ->
  exists s js, dump_json_file e z passes md5 w p f = (s, Ok true) /\ json_stream s = Some js /\ says e z passes md5 w p f js.
Proof.
  intros e z passes md5 w p f ((r & R) & js & S). destruct (file_said _ _ _ _ _ _ _ _ _ R S) as (l & E & P & SS). exists (saying l), (objects l).
  split; [exact E|]. split; [now apply json_stream_saying|exact SS].
Qed.
Print Assumptions C93_dump_partial.
Example C93_dump_nontrivial : fine E_ISO_8859_1 no_zlib 3 ex_sum ex_world ex_all (ex_dfile ex_told) /\
  dump_json_file E_ISO_8859_1 no_zlib 3 ex_sum ex_world ex_all (ex_dfile ex_told) =
    (B "{""version"":""2.3"",""unsynchronised"":true,""flags"":0,""size"":49,""padding"":0,""frames"":[" ++
     B "{""id"":""TIT2"",""size"":5,""text"":""Song""},{""id"":""TXXX"",""size"":8,""description"":""key"",""text"":""val""}," ++
     B "{""id"":""POPM"",""size"":6,""email"":""me"",""rating"":200,""count"":258}]}{""md5"":""03""}" ++
     B "{""version"":""1.1"",""album"":"""",""artist"":""Band"",""comment"":"""",""genre"":9,""title"":""Song"",""year"":""1999"",""track"":7}" ++ [10], Ok true).
Proof. split; [exact ex_fine|]. vm_compute. reflexivity. Qed.

(** The same for any number of files, named or found in directories: the objects for each,
    in order. *)
Theorem C93_run_partial : forall e z passes md5 w p matches args, (forall a, In a args -> a <> DMissing) ->
  Forall (fine e z passes md5 w p) (listed matches args) ->
  exists s jss, dump_args (dump_json_file e z passes md5 w p) matches args = (s, Ok tt) /\
    json_stream s = Some (concat jss) /\ Forall2 (says e z passes md5 w p) (listed matches args) jss.
Proof. exact run_said. Qed.
Print Assumptions C93_run_partial.
Example C93_run_nontrivial : let args := [DFile (ex_dfile ex_told); DDir [None; Some (ex_dfile ex_told)]] in
  Forall (fine E_ISO_8859_1 no_zlib 3 ex_sum ex_world ex_all) (listed (fun _ => true) args) /\ List.length (listed (fun _ => true) args) = 2%nat.
Proof. split; [|reflexivity]. constructor; [exact ex_fine|constructor; [exact ex_fine|constructor]]. Qed.

(** It is not so that a file that cannot be dumped leaves the others alone, as it does
    with the other formats.  One ID3v2.3 frame that cannot be told, and nothing at all
    can be read from the output of the whole run -- which succeeds. *)
Theorem C93_spoiled_refuted : forall e z passes md5 w p matches args pre f post, (forall a, In a args -> a <> DMissing) ->
  listed matches args = pre ++ f :: post -> Forall (fine e z passes md5 w p) pre -> broken_off z passes md5 w p f -> Forall (fine e z passes md5 w p) post ->
  exists s, dump_args (dump_json_file e z passes md5 w p) matches args = (s, Ok tt) /\ dump_status (Ok tt) = 0 /\ json_stream s = None.
Proof.
  intros e z passes md5 w p matches args pre f post NM L F1 BO F2. destruct (run_spoiled _ _ _ _ _ _ _ _ _ _ _ NM L F1 BO F2) as (s & E & J). exists s. repeat split; assumption.
Qed.
Print Assumptions C93_spoiled_refuted.
Example C93_spoiled_nontrivial : let args := map (fun b => DFile (ex_dfile b)) [ex_told; ex_untold; ex_told] in
  listed (fun _ => true) args = [ex_dfile ex_told] ++ ex_dfile ex_untold :: [ex_dfile ex_told] /\
  fine E_ISO_8859_1 no_zlib 3 ex_sum ex_world ex_all (ex_dfile ex_told) /\ broken_off no_zlib 3 ex_sum ex_world ex_all (ex_dfile ex_untold).
Proof. split; [reflexivity|]. split; [exact ex_fine|exact ex_broken]. Qed.

(** No file with an ID3v2.2 or ID3v2.4 tag that has a frame is ever dumped in JSON. *)
Theorem C93_other_refuted : forall e z passes md5 w p f r l ts t s,
  dump_read z passes md5 (df_data f) = Ok r -> tags_of z passes (df_data f) l ts -> p_v2 (all_parts p) = true ->
  In t ts -> any_version t <> V23 -> shown t <> [] -> dump_json_file e z passes md5 w p f <> (s, Ok true).
Proof. exact other_never. Qed.
Print Assumptions C93_other_refuted.
Example C93_other_nontrivial :
  match dump_read no_zlib 3 ex_sum (ex_v2 4 (ex_text (B "TIT2") (B "Song")) ++ [1; 2; 3]) with
  | Ok ([(_, t)], _, _) => any_version t = V24 /\ List.length (shown t) = 1%nat
  | _ => False
  end /\
  snd (dump_json_file E_ISO_8859_1 no_zlib 3 ex_sum ex_world ex_all (ex_dfile (ex_v2 4 (ex_text (B "TIT2") (B "Song")) ++ [1; 2; 3]))) = UB OutOfBounds.
Proof. vm_compute. repeat split. Qed.

(** Every ID3v2.3 tag is said to be unsynchronised, whatever the bytes it was read from:
    what is asked is whether the flag is known. *)
Theorem C93_unsynchronised_refuted : forall z passes flags b t w rev, parse_any z passes 3 flags b = Ok t ->
  exists rest, fst (dump_json_tag z w (rev, t)) = B "{""version"":""2.3"",""unsynchronised"":true," ++ rest.
Proof.
  intros z passes flags b t w rev E. eapply always_unsynchronised; [exact E|]. unfold parse_any in E. apply bind_ok in E as (x & _ & E). apply Ok_inj in E. now subst t.
Qed.
Print Assumptions C93_unsynchronised_refuted.
Example C93_unsynchronised_nontrivial : parse_any no_zlib 3 3 0 ex_bytes = Ok ex_tag /\ any_unsync ex_tag = Some false.
Proof. split; [vm_compute; reflexivity|reflexivity]. Qed.
