(** * Specification: what the genre and text commands should do to tags. *)
From Verif Require Import Base M_Charset M_Payload M_Frame M_TextId M_Lookup M_Id3v1 M_Read M_Genres M_Match M_Process M_Cmds S_Charset S_Lookup S_Id3v1 S_Process.
#[local] Open Scope N_scope.

(** ** Tags as they are seen *)

(** A tag that reading some file gives. *)
Definition as_read (t : anytag) : Prop := exists z passes data v2 v1, read_tagset z passes data = Ok (v2, v1) /\ In t v2.

(** Its frames, in order. *)
Definition shown (t : anytag) : list frame := map c_frame (any_frames t).

(** The two tags differ in their frames at most. *)
Definition same_rest (t t' : anytag) : Prop := any_set_frames [] t' = any_set_frames [] t.

(** The frame is a text frame with text [s], as told in encoding [dst]. *)
Definition reads (ic : iconv_t) (v : version) (dst : enc) (f : frame) (s : bytes) : Prop :=
  exists t, f_body f = BText t /\ text_as_str v ic t dst NoFail None = Ok s.

(** A text that can be kept: not empty, no NUL, no byte order mark, no blank at the
    end, and iconv takes it to the encoding tags store and back, growing it at
    most fourfold. *)
Definition storable (ic : iconv_t) (v : version) (src : enc) (s : bytes) : Prop :=
  s <> [] /\ no_nul s /\ no_bom s /\ no_trailing s /\ char_unit src = true /\
  exists out, ic src (stored v) NoFail s = Some out /\ out <> [] /\ len out <= 4 * len s /\
              ic (stored v) src NoFail out = Some s.

(** The identifier that version [v] gives to the text frame [k], which is read as a
    text frame (all are, but for the 2.2 one for beats per minute). *)
Definition names (v : version) (k : tframe) (id : bytes) : Prop := frame_id_of v k = Ok id /\ kind_of v id = KText.

(** ** Setting *)

(** One frame named [id] now has text [s] and keeps its place and flags; if there
    was none, one has been added at the end. *)
Definition text_put (ic : iconv_t) (v : version) (src : enc) (id s : bytes) (fs fs' : list frame) : Prop :=
  (exists l1 f f' l2, fs = l1 ++ f :: l2 /\ fs' = l1 ++ f' :: l2 /\
     f_id f = id /\ f_id f' = id /\ f_flags f' = f_flags f /\ reads ic v src f' s) \/
  (with_id id fs = [] /\ exists f', fs' = fs ++ [f'] /\ f_id f' = id /\ f_flags f' = no_flags /\ reads ic v src f' s).

(** Several texts, by identifier: the frames keep places, identifiers and flags,
    and are as they were or have the text given for their identifier; new frames
    follow, one for each identifier that had none, in the order given; and there is
    a frame with each of the texts. *)
Definition texts_put (ic : iconv_t) (v : version) (src : enc) (xs : list (bytes * bytes)) (fs fs' : list frame) : Prop :=
  exists fs1 fs2, fs' = fs1 ++ fs2 /\
  Forall2 (fun f f' => f_id f' = f_id f /\ f_flags f' = f_flags f /\
                       (f' = f \/ exists s, In (f_id f, s) xs /\ reads ic v src f' s)) fs fs1 /\
  map f_id fs2 = filter (fun id => negb (existsb (fun f => bytes_eqb (f_id f) id) fs)) (map fst xs) /\
  Forall (fun f => f_flags f = no_flags /\ exists s, In (f_id f, s) xs /\ reads ic v src f s) fs2 /\
  forall id s, In (id, s) xs -> exists f, In f fs' /\ f_id f = id /\ reads ic v src f s.

(** ** Deleting *)

(** One frame named [id] is gone. *)
Definition one_gone (id : bytes) (fs fs' : list frame) : Prop :=
  exists l1 f l2, fs = l1 ++ f :: l2 /\ f_id f = id /\ fs' = l1 ++ l2.

(** All of those named are gone. *)
Definition all_gone (ids : list bytes) (fs : list frame) : list frame :=
  filter (fun f => negb (existsb (bytes_eqb (f_id f)) ids)) fs.

(** The frames are named from the last to the first: a frame named later stands
    before those named earlier. *)
Definition last_first (fs : list frame) (ids : list bytes) : Prop :=
  forall i j a b p q f g, nth_error ids i = Some a -> nth_error ids j = Some b -> (i < j)%nat ->
  nth_error fs p = Some f -> f_id f = a -> nth_error fs q = Some g -> f_id g = b -> (q < p)%nat.

(** ** The genre command *)

(** The identifier of the content type. *)
Definition tcon_id (v : version) : bytes := match v with V22 => B "TCO" | _ => B "TCON" end.

(** The tag has the genre now: nothing is changed if it could be read there, else
    one content type is set. *)
Definition genre_put (ic : iconv_t) (text : bytes) (t t' : anytag) (changed : bool) : Prop :=
  same_rest t t' /\
  if changed then text_put ic (any_version t) E_UTF_8 (tcon_id (any_version t)) text (shown t) (shown t')
  else t' = t /\ exists f, In f (with_id (tcon_id (any_version t)) (shown t)) /\ reads ic (any_version t) E_UTF_8 f text.

(** A tag with content type, each of which can be read. *)
Definition has_genre (ic : iconv_t) (t : anytag) : Prop :=
  with_id (tcon_id (any_version t)) (shown t) <> [] /\
  forall f, In f (with_id (tcon_id (any_version t)) (shown t)) -> exists s, reads ic (any_version t) E_UTF_8 f s.

(** The written form of an ID3v1 tag with genre [g], all else as in [b]; in the
    enhanced form the name of the genre goes to the thirty bytes at 185. *)
Definition genre_in_v1 (g : N) (name : bytes) (extended : bool) (b b' : bytes) : Prop :=
  if extended then
    exists a x c old, b = a ++ x ++ c ++ [old] /\ len a = 185 /\ len x = 30 /\
      b' = a ++ fixed 30 name ++ c ++ [g]
  else exists a old, b = a ++ [old] /\ b' = a ++ [g].

(** A tag in scope is given the genre, another is left alone. *)
Definition genre_set (ic : iconv_t) (text : bytes) (p : policies) (it : N * anytag) (x : anytag * bool) : Prop :=
  if in_scope p (fst it) then genre_put ic text (snd it) (fst x) (snd x) else x = (snd it, false).

(** The ID3v1 tag is given the genre if it is to be, else left alone. *)
Definition v1_genre_set (g : N) (name : bytes) (p : policies) (v1 v1' : option id3v1_tag) : Prop :=
  match v1, v1' with
  | None, None => True
  | Some t, Some t' => if p_v1_scope p then exists b b', v1_write t = Ok b /\ v1_write t' = Ok b' /\ genre_in_v1 g name (v_extended t) b b' else t' = t
  | _, _ => False
  end.

(** ** The text command *)

(** All of the texts of the tag in scope set, after the deletion of the frames named. *)
Definition tag_texts_set (ic : iconv_t) (src : enc) (p : policies) (dels : version -> list bytes) (sets : version -> list (bytes * bytes)) (it : N * anytag) (t' : anytag) : Prop :=
  let t := snd it in
  if in_scope p (fst it)
  then same_rest t t' /\ texts_put ic (any_version t) src (sets (any_version t)) (all_gone (dels (any_version t)) (shown t)) (shown t')
  else t' = t.

(** The identifiers of the text frames in version [v]. *)
Definition ids_in (v : version) (ks : list tframe) : list bytes :=
  map (fun k => match frame_id_of v k with Ok id => id | _ => [] end) ks.

(** The tag can take what is asked: the frames are text frames of its version, no
    frame to delete is there twice, those there are named from the last to the
    first, and the texts can be stored. *)
Definition text_takes (ic : iconv_t) (o : text_opts) (t : anytag) : Prop :=
  let v := any_version t in
  (forall k, In k (to_dels o ++ map fst (to_sets o)) -> exists id, names v k id) /\
  (forall id, In id (ids_in v (to_dels o)) -> (length (with_id id (shown t)) <= 1)%nat) /\
  last_first (shown t) (ids_in v (to_dels o)) /\
  Forall (fun x => storable ic v (to_enc o) (snd x)) (to_sets o).

(** ** Copying between versions *)

(** ASCII text without NUL, not ending in a blank. *)
Definition ascii_text (s : bytes) : Prop := Forall (fun c => 0 < c /\ c < 128) s /\ no_trailing s.

(** A field of fixed size with that text, filled up with NULs and spaces. *)
Definition holds (field s : bytes) : Prop := ascii_text s /\ exists fill, field = s ++ fill /\ Forall (fun c => c = 0 \/ c = 32) fill.

(** ASCII text is the same in these encodings. *)
Definition ascii_alike (ic : iconv_t) : Prop := forall src dst s,
  In src [E_ASCII; E_ISO_8859_1; E_UTF_8] -> In dst [E_ASCII; E_ISO_8859_1; E_UTF_8] -> Forall (fun c => c < 128) s ->
  ic src dst NoFail s = Some s.

(** The frames that should be made from an ID3v1 tag: each text but an empty one. *)
Definition text_frame_of (id s : bytes) : list frame :=
  match s with [] => [] | _ => [mkFrame id no_flags (BText (mkText 0 s))] end.
Definition comment_frame_of (lang s : bytes) : list frame :=
  match s with [] => [] | _ => [mkFrame (B "COMM") no_flags (BComm (mkComm 1 (Some 0) (Some lang) [] s))] end.
Definition frames_of_v1 (lang artist title album comment : bytes) (genre : option bytes) (year : bytes) : list frame :=
  text_frame_of (B "TPE1") artist ++ text_frame_of (B "TIT2") title ++ text_frame_of (B "TALB") album ++ comment_frame_of lang comment ++
  text_frame_of (B "TCON") (match genre with Some g => g | None => [] end) ++ text_frame_of (B "TYER") (if len year =? 4 then year else []).

(** The tag's texts by [k] all read [s], and there is one at least. *)
Definition tells (ic : iconv_t) (k : tframe) (t : anytag) (s : bytes) : Prop :=
  exists id, names (any_version t) k id /\ with_id id (shown t) <> [] /\
  forall f, In f (with_id id (shown t)) -> reads ic (any_version t) E_UTF_8 f s.

(** The tag has none by [k]. *)
Definition lacks (k : tframe) (t : anytag) : Prop := exists id, names (any_version t) k id /\ with_id id (shown t) = [].

(** The first text that is not empty, the first of four characters. *)
Definition first_text (ss : list bytes) : bytes := match find (fun s => negb (len s =? 0)) ss with Some s => s | None => [] end.
Definition first_year (ss : list bytes) : bytes := match find (fun s => len s =? 4) ss with Some s => s | None => [] end.

(** [g] is the number of the first of the genres named that are closest to one of the table. *)
Definition best_genre (wide : bytes -> outcome (list N)) (ss : list bytes) (g : N) : Prop :=
  exists a s b name d, ss = a ++ s :: b /\ s <> [] /\ match_genre wide s = Ok (name, g, d) /\
  (forall s' name' g' d', In s' a -> s' <> [] -> match_genre wide s' = Ok (name', g', d') -> (d < d')%Z) /\
  (forall s' name' g' d', In s' b -> s' <> [] -> match_genre wide s' = Ok (name', g', d') -> (d <= d')%Z).

(** ** Commands without state, in terms of calls *)

(** The call comes back. *)
Definition succeeds (P : processor unit) (c : call) : Prop :=
  match c with
  | ProcessV2 t => exists x, process_v2 P tt t = Ok x
  | ProcessV1 t => exists x, process_v1 P tt t = Ok x
  | CreateV2From t => exists x, create_v2_from P tt t = Ok x
  | CreateV2 => exists x, create_v2 P tt = Ok x
  | CreateV1From l => exists x, create_v1_from P tt l = Ok x
  | CreateV1 => exists x, create_v1 P tt = Ok x
  end.

(** What the command does where it comes back. *)
Definition command_of (P : processor unit) : command := mkCommand
  (fun t => match process_v2 P tt t with Ok (d, t', _) => (d, t') | _ => (false, t) end)
  (fun t => match process_v1 P tt t with Ok (d, t', _) => (d, t') | _ => (false, t) end)
  (fun t => match create_v2_from P tt t with Ok (q, _) => q | _ => None end)
  (match create_v2 P tt with Ok (q, _) => q | _ => None end)
  (fun l => match create_v1_from P tt l with Ok (q, _) => q | _ => None end)
  (match create_v1 P tt with Ok (q, _) => q | _ => None end).
