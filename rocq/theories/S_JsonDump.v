(** * Specification: what a dump in JSON says of files. *)
From Verif Require Import Base M_Ints M_Stream M_Id3v1 M_Payload M_Cloud M_Frame M_Tag22 M_Tag23 M_Tag24 M_Charset M_Lookup M_Mp3 M_Track M_Read
  M_Tagset M_Process M_Cmds M_Csv M_Dump S_Ints S_Lookup S_Cmds S_Csv S_Json S_JsonTag S_Lang S_Read S_Dump.
#[local] Open Scope N_scope.

(** An owner or an address: ISO-8859-1, told as UTF-8. *)
Definition told_latin (ic : iconv_t) (b s : bytes) : Prop :=
  b = [] /\ s = [] \/ b <> [] /\ to_string ic b E_ISO_8859_1 E_UTF_8 NoFail = Ok s.
(** A text of a comment, in the encoding that [u] stands for. *)
Definition told_comment (ic : iconv_t) (u : option N) (b s : bytes) : Prop :=
  b = [] /\ s = [] \/ b <> [] /\ exists n, u = Some n /\ told_in ic V23 n b s.

(** The object for an ID3v2.3 frame: its identifier, the size of its contents, and what is
    in it. *)
Inductive frame_json (ic : iconv_t) (f : frame) : list (bytes * json) -> Prop :=
| fj_unknown b : f_body f = BUnknown b -> frame_json ic f []
| fj_text s : reads ic V23 E_UTF_8 f s -> printable s -> frame_json ic f [(B "text", JStr s)]
| fj_user u d t : f_body f = BTxxx u -> told_in ic V23 (ud_unicode u) (ud_desc u) d -> told_in ic V23 (ud_unicode u) (ud_text u) t ->
    printable d -> printable t -> frame_json ic f [(B "description", JStr d); (B "text", JStr t)]
| fj_comment c d t : f_body f = BComm c -> told_comment ic (co_unicode c) (co_desc c) d -> told_comment ic (co_unicode c) (co_text c) t ->
    printable d -> printable t -> frame_json ic f [(B "description", JStr d); (B "text", JStr t)]
| fj_popm p e : f_body f = BPopm p -> told_latin ic (po_email p) e -> printable e -> is_bytes (po_counter p) ->
    1 <= len (po_counter p) -> len (po_counter p) <= 4 ->
    frame_json ic f [(B "email", JStr e); (B "rating", jnum (po_rating p)); (B "count", jnum (positional 256 (po_counter p)))]
| fj_encr e a : f_body f = BEncr e -> told_latin ic (en_email e) a -> printable a -> frame_json ic f [(B "email", JStr a)]
| fj_priv p a : f_body f = BPriv p -> told_latin ic (pr_email p) a -> printable a -> frame_json ic f [(B "email", JStr a)].
Definition frame_says (ic : iconv_t) (f : frame) (j : json) : Prop :=
  exists l, frame_json ic f l /\ plain (f_id f) /\ size_body (f_body f) < 2 ^ 31 /\
    j = JObj ([(B "id", JStr (f_id f)); (B "size", jnum (size_body (f_body f)))] ++ l).

(** The object for a tag; only ID3v2.3 ones have one.  [un] is what is said of whether it
    is unsynchronised. *)
Definition tag_says (un : anytag -> bool) (z : zlib) (ic : iconv_t) (t : anytag) (j : json) : Prop :=
  any_version t = V23 /\ exists k t' js, any_size z t false = Ok (k, t') /\ Forall2 (frame_says ic) (shown t) js /\
  j = JObj [(B "version", JStr (B "2.3")); (B "unsynchronised", JBool (un t)); (B "flags", jnum (said_flags t));
            (B "size", jnum (k mod 2 ^ 64)); (B "padding", jnum (padding_of t)); (B "frames", JArr js)].

(** The object for the track: its digest, in hexadecimal digits. *)
Definition track_says (sum : bytes) (j : json) : Prop :=
  exists h, j = JObj [(B "md5", JStr h)] /\ in_hex sum h.

(** The object for an ID3v1 tag. *)
Definition v1_says (ic : iconv_t) (e : enc) (t : id3v1_tag) (j : json) : Prop :=
  exists album artist comment title year track genre,
    told_v1 ic e (v_album t) album /\ plain album /\
    told_v1 ic e (v_artist t) artist /\ printable artist /\ told_v1 ic e (v_comment t) comment /\ printable comment /\
    told_v1 ic e (v_title t) title /\ printable title /\ told_v1 ic e (v_year t) year /\ printable year /\
    (if v_v1_1 t then exists k, v_track t = Some k /\ track = [(B "track", jnum k)] else track = []) /\
    (if v_extended t then exists g, told_v1 ic e (v_ext_genre t) g /\ printable g /\ genre = [(B "enhanced-genre", JStr g)] else genre = []) /\
    j = JObj ([(B "version", JStr (B "1" ++ (if v_v1_1 t then B ".1" else []) ++ (if v_extended t then B "-enh" else [])));
               (B "album", JStr album); (B "artist", JStr artist); (B "comment", JStr comment); (B "genre", jnum (v_genre t));
               (B "title", JStr title); (B "year", JStr year)] ++ track ++ genre).

(** The objects for a file, of which [tags], [track] and [v1] say whether they are
    wanted. *)
Definition file_says (un : anytag -> bool) (v1enc : enc) (z : zlib) (passes : nat) (md5 : bytes -> bytes) (ic : iconv_t) (tags track v1 : bool)
    (f : dfile) (js : list json) : Prop :=
  exists l ts o size sum tj trj vj,
    tags_of z passes (df_data f) l ts /\ track_of md5 (df_data f) l size sum /\ v1_of (df_data f) o /\
    (if tags then Forall2 (tag_says un z ic) ts tj else tj = []) /\
    (if track then exists j, track_says sum j /\ trj = [j] else trj = []) /\
    match o with Some t => if v1 then exists j, v1_says ic v1enc t j /\ vj = [j] else vj = [] | None => vj = [] end /\
    js = tj ++ trj ++ vj.

(** The files that the arguments stand for and that the expression matches. *)
Definition listed (matches : bytes -> bool) (args : list darg) : list dfile :=
  flat_map (fun o => match o with Some f => if matches (df_path f) then [f] else [] | None => [] end) (flat_map arg_files args).

(** Frames that cannot be told: texts that cannot be converted, and counters that are too
    long. *)
Inductive untold (ic : iconv_t) (f : frame) : Prop :=
| un_text t e : f_body f = BText t -> text_as_str V23 ic t E_UTF_8 NoFail None = Throw e -> untold ic f
| un_user u e : f_body f = BTxxx u -> text_as_str V23 ic (mkText (ud_unicode u) (ud_desc u)) E_UTF_8 NoFail None = Throw e -> untold ic f
| un_comment c u e : f_body f = BComm c -> co_unicode c = Some u -> co_desc c <> [] ->
    text_as_str V23 ic (mkText u (co_desc c)) E_UTF_8 NoFail None = Throw e -> untold ic f
| un_count c : f_body f = BCount c -> 4 < len c -> untold ic f
| un_popm p s : f_body f = BPopm p -> told_latin ic (po_email p) s -> 4 < len (po_counter p) -> untold ic f.

(** What the command is to say of a file, given the parts that were asked for -- except
    that the flag for the unsynchronisation is always set. *)
Definition says (e : enc) (z : zlib) (passes : nat) (md5 : bytes -> bytes) (w : world) (p : parts) (f : dfile) (js : list json) : Prop :=
  file_says (fun _ => true) e z passes md5 (w_ic w) (p_v2 (all_parts p)) (p_track (all_parts p)) (p_v1 (all_parts p)) f js.
(** Files that can be read and of which everything can be said. *)
Definition fine e z passes md5 w p (f : dfile) : Prop :=
  (exists r, dump_read z passes md5 (df_data f) = Ok r) /\ exists js, says e z passes md5 w p f js.
(** Files with an ID3v2.3 tag in which a frame cannot be told; everything before it can. *)
Definition broken_off (z : zlib) (passes : nat) (md5 : bytes -> bytes) (w : world) (p : parts) (f : dfile) : Prop :=
  exists r l ts pre t post f0 fr f1 k t', dump_read z passes md5 (df_data f) = Ok r /\ tags_of z passes (df_data f) l ts /\ p_v2 (all_parts p) = true /\
    ts = pre ++ t :: post /\ (forall x, In x pre -> exists j, tag_says (fun _ => true) z (w_ic w) x j) /\
    any_version t = V23 /\ any_size z t false = Ok (k, t') /\ shown t = f0 ++ fr :: f1 /\
    (forall x, In x f0 -> exists j, frame_says (w_ic w) x j) /\ untold (w_ic w) fr.
