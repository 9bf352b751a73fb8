(** * Specification: what a file holds after a command. *)
From Verif Require Import Base M_Ints M_Id3v1 S_Ints S_Id3v1 M_Payload M_Frame M_Charset M_Lookup M_Read M_Fs M_Tagset M_Process M_Popm M_Cmds M_Options
  S_Read S_Tagset S_Saved S_Process S_Lookup S_Popm S_Cmds.
#[local] Open Scope N_scope.

(** Bytes of the trailing tag. *)
Definition trailer (v1 : option id3v1_tag) : N := match v1 with Some t => v1_size t | None => 0 end.
(** The file's leading tags are those of [l], and between them and the trailing tag
    there is [a]: the audio. *)
Definition holds_audio (data : bytes) (l : list head) (v1 : option id3v1_tag) (a : bytes) : Prop :=
  tags_from data 0 l /\ tags_end 0 l <= len data /\
  exists blk, dropN (tags_end 0 l) data = a ++ blk /\ len blk = trailer v1.

(** The same trailing tag. *)
Definition same_v1 (v1 v1' : option id3v1_tag) : Prop :=
  match v1, v1' with
  | None, None => True
  | Some t, Some t' => S_Id3v1.same_tag t t'
  | _, _ => False
  end.

(** A trailing tag that reads as itself behind the audio [a]. *)
Definition v1_fits (a : bytes) (v1 : option id3v1_tag) : Prop :=
  forall t, v1 = Some t -> wf_v1 t /\ (v_extended t = false -> ~ ends_in_block a 227 (B "TAG+")).

(** A file given by the path [path] is the entry [n] of the directory [d], and not
    used as the temporary file. *)
Definition file_at (e : env) (path d n : bytes) : Prop :=
  path <> [] /\ hd 0 (e_cwd e) = 47 /\ dir_path d /\ plain_name n /\ absolute (e_cwd e) path = spelled d n /\
  ~ In 46 (last (e_tmp e) []) /\ e_tmp e <> resolve (e_cwd e) path.

(** What the policies make of unsynchronisation. *)
Definition mode (p : policies) : apply_unsync := if p_adjust p then AsNeeded else Never.

(** The tags can be written: with backups, always; in place, over tags of [T]
    bytes, where they are no larger than a tag can be, of one kind, and paddings
    do not wrap (C33, C34). *)
Definition can_be_written (z : zlib) (p : policies) (T : N) (ts : list anytag) : Prop :=
  p_backups p = true \/
  T < 2 ^ 28 /\ Forall (fun t => any_padding t < 2 ^ 62) ts /\
  (Forall simple_tag ts \/ Forall (fun t => is_v24 t = true) ts) /\
  exists n pd ts1, sizes z (mode p) ts = Ok (n, pd, ts1) /\ n < 2 ^ 28 /\ ~ wraps ts T n.

(** The file is not so large that its size does not fit in 64 bits. *)
Definition moderate (k : key) (fs : fsys) : Prop := forall data, find_node k fs = Some (File data) -> len data < 2 ^ 64.

(** No padding in ID3v2.4 tags. *)
Definition v24_unpadded (t : anytag) : Prop := is_v24 t = true -> any_padding t = 0.

(** ** Files in order *)

(** A file whose ID3v2 tags [v2], of version 2.3 or 2.4, are such that what is
    written reads back (C32, C74), with an ID3v1 tag [v1] or none and the audio [a]
    in between. *)
Definition in_order (z : zlib) (passes : nat) (k : key) (a : bytes) (fs : fsys) (v2 : list anytag) (v1 : option id3v1_tag) : Prop :=
  exists data l, find_node k fs = Some (File data) /\ read_tagset z passes data = Ok (v2, v1) /\ v2 <> [] /\
    holds_audio data l v1 a /\ v1_fits a v1 /\ Forall (S_Saved.storable z Never) v2 /\ Forall (fun t => any_version t <> V22) v2.

(** ** Plays added *)

(** The frame with [n] more plays and the rating asked for, if any. *)
Definition raised (rating : option N) (n : N) (f f' : frame) : Prop :=
  f_id f' = f_id f /\ f_flags f' = f_flags f /\
  match f_body f, f_body f' with
  | BCount b, BCount b' => positional 256 b' = positional 256 b + n
  | BPopm p, BPopm p' =>
      po_email p' = po_email p /\ po_rating p' = (match rating with Some r => r | None => po_rating p end) /\
      positional 256 (po_counter p') = positional 256 (po_counter p) + n
  | _, _ => False
  end.
(** So it is with the frames that the options name; the others are as they were. *)
Definition plays_added (ic : iconv_t) (v : version) (o : popm_opts) (n : N) (f f' : frame) : Prop :=
  named ic v o f /\ raised (o_rating o) n f f' \/ ~ named ic v o f /\ f' = f.
Definition tag_plays_added (ic : iconv_t) (o : popm_opts) (n : N) (t t' : anytag) : Prop :=
  any_version t' = any_version t /\ Forall2 (plays_added ic (any_version t) o n) (shown t) (shown t').
(** The counters named are made of bytes, and can be raised that much. *)
Definition room_for (ic : iconv_t) (o : popm_opts) (n : N) (t : anytag) : Prop :=
  forall f b, In f (shown t) -> named ic (any_version t) o f -> counter_of f = Some b -> is_bytes b /\ positional 256 b + n < 2 ^ 32.

(** The command run so many times in turn, each time successfully, from the files
    [fs] to the files [fs'], with [ok] after each run. *)
Fixpoint in_turn (times : nat) (command : FS N) (ok : fsys -> Prop) (fs fs' : fsys) : Prop :=
  match times with
  | O => fs' = fs
  | S times => exists st fs1, command fs = (st, (Ok 0, fs1)) /\ ok fs1 /\ in_turn times command ok fs1 fs'
  end.

(** ** Texts set *)

(** The tag without the frames named, with the texts given. *)
Definition tag_texts_read (ic : iconv_t) (o : text_opts) (t t' : anytag) : Prop :=
  let v := any_version t in
  any_version t' = v /\
  texts_put ic v (to_enc o) (combine (ids_in v (map fst (to_sets o))) (map snd (to_sets o))) (all_gone (ids_in v (to_dels o)) (shown t)) (shown t').

(** ** Histories of commands *)

(** The file can be read, and holds the audio [a]. *)
Definition audio_there (z : zlib) (passes : nat) (k : key) (a : bytes) (fs : fsys) : Prop :=
  exists data l v2 v1, find_node k fs = Some (File data) /\ read_tagset z passes data = Ok (v2, v1) /\ holds_audio data l v1 a.
(** A command that has succeeded on the file, what it made of the tags being such
    that it can be written and read back. *)
Inductive sound_run (z : zlib) (passes : nat) (e : env) (path a : bytes) (fs fs' : fsys) : Prop :=
  SoundRun : forall (S : Type) (P : processor S) p s st o,
    process_file z passes e P p path s fs = (st, (Ok o, fs')) -> moderate (resolve (e_cwd e) path) fs' ->
    (forall data l v2 v1 v2' v1' s', find_node (resolve (e_cwd e) path) fs = Some (File data) -> tags_from data 0 l ->
       read_tagset z passes data = Ok (v2, v1) -> p_dry p = false -> process_tagset P p v2 v1 s = Ok (true, v2', v1', s') ->
       Forall (S_Saved.storable z (mode p)) v2' /\ v1_fits a v1' /\ can_be_written z p (tags_end 0 l) v2') ->
    sound_run z passes e path a fs fs'.
(** One after the other, with other programs between them that leave the file alone. *)
Inductive sound_runs (z : zlib) (passes : nat) (e : env) (path a : bytes) : fsys -> fsys -> Prop :=
| NoRuns : forall fs, sound_runs z passes e path a fs fs
| OneMore : forall fs fs1 fs2 fs3, sound_run z passes e path a fs fs1 ->
    find_node (resolve (e_cwd e) path) fs2 = find_node (resolve (e_cwd e) path) fs1 ->
    sound_runs z passes e path a fs2 fs3 -> sound_runs z passes e path a fs fs3.

(** ** Genres set *)

(** The tag in scope has the genre, another is as it was. *)
Definition genre_read (ic : iconv_t) (text : bytes) (p : policies) (it : N * anytag) (t' : anytag) : Prop :=
  let t := snd it in let v := any_version t in
  any_version t' = v /\
  (shown t' = shown t /\ (in_scope p (fst it) = true -> exists f, In f (with_id (tcon_id v) (shown t)) /\ reads ic v E_UTF_8 f text) \/
   in_scope p (fst it) = true /\ text_put ic v E_UTF_8 (tcon_id v) text (shown t) (shown t')).
