(** * Specification: what a dump in the standard format says of a file. *)
From Verif Require Import Base M_Ints M_Stream M_Id3v1 M_Payload M_Cloud M_Frame M_Tag22 M_Tag23 M_Tag24 M_Charset M_Lookup M_Mp3 M_Track M_Read
  M_Tagset M_Process M_Cmds M_Csv M_Genres M_Dump S_Ints S_Lookup S_Cmds S_Csv S_JsonTag S_Lang S_Read.
#[local] Open Scope N_scope.

(** ** Texts *)
Definition unlines (ls : list bytes) : bytes := flat_map (fun l => l ++ [10]) ls.

(** Bytes as pairs of hexadecimal digits. *)
Definition in_hex (b s : bytes) : Prop := is_bytes b -> from_hex s = Some b.

(** An owner or an address: ASCII, told as UTF-8. *)
Definition told_ascii (ic : iconv_t) (b s : bytes) : Prop :=
  b = [] /\ s = [] \/ b <> [] /\ to_string ic b E_ASCII E_UTF_8 NoFail = Ok s.
(** A text in the encoding that [u] stands for. *)
Definition told_in (ic : iconv_t) (v : version) (u : N) (b s : bytes) : Prop :=
  text_as_str v ic (mkText u b) E_UTF_8 NoFail None = Ok s.
(** One that a comment holds, with what is said in its place if it is empty. *)
Definition told_or (ic : iconv_t) (v : version) (u : option N) (b no s : bytes) : Prop :=
  exists x, (b = [] /\ x = [] \/ b <> [] /\ exists n, u = Some n /\ told_in ic v n b x) /\ s = match x with [] => no | _ => x end.

(** The language of a comment: a code that is known, or else three numbers; those
    from 128 on as negative ones. *)
Definition known_language (l : bytes) : Prop := exists c, standard_code c /\ l = spelling c.
Definition number_told (x : N) (s : bytes) : Prop :=
  x < 256 -> exists h, from_hex h = Some [x] /\ s = B "0x" ++ (if x <? 128 then [] else B "ffffff") ++ h.
Definition told_language (l s : bytes) : Prop :=
  known_language l /\ s = l \/
  ~ known_language l /\ exists a b c r t u, l = [a; b; c] /\ number_told a r /\ number_told b t /\ number_told c u /\
    s = r ++ B "," ++ t ++ B "," ++ u.

(** Texts with a separator in between. *)
Fixpoint separated (sep : bytes) (ts : list bytes) : bytes :=
  match ts with [] => [] | [t] => t | t :: r => t ++ sep ++ separated sep r end.

(** The first bytes, in hexadecimal digits and as characters where there are any. *)
Definition visible (x : N) : N := if (32 <=? x) && (x <=? 126) then x else 46.
Definition byte_view (b s : bytes) : Prop :=
  exists hs, Forall2 (fun x h => in_hex [x] h) b hs /\ s = separated [32] hs ++ B "  >" ++ map visible b ++ B "<".

(** ** Frames: one line or more for each *)
Inductive frame_lines (ind : bytes) (ic : iconv_t) (v : version) (f : frame) : list bytes -> Prop :=
| fl_unknown2 b : f_body f = BUnknown b -> v = V22 -> frame_lines ind ic v f [ind ++ f_id f ++ B ": UNKNOWN"]
| fl_unknown b n : f_body f = BUnknown b -> v <> V22 -> as_decimal n = Some (len b) ->
    frame_lines ind ic v f [B "frame " ++ f_id f ++ B " (" ++ n ++ B " bytes)"]
| fl_text s : reads ic v E_UTF_8 f s -> frame_lines ind ic v f [ind ++ f_id f ++ B ": " ++ s]
| fl_ufid u o h : f_body f = BUfid u -> told_ascii ic (uf_owner u) o -> in_hex (uf_id u) h ->
    frame_lines ind ic v f [ind ++ f_id f ++ B ": " ++ o; ind ++ repeat 32 (match v with V22 => 5 | _ => 6 end) ++ h]
| fl_user u d t : f_body f = BTxxx u -> told_in ic v (ud_unicode u) (ud_desc u) d -> told_in ic v (ud_unicode u) (ud_text u) t ->
    frame_lines ind ic v f [ind ++ f_id f ++ B ": " ++ d; ind ++ t]
| fl_comment c l s d t : f_body f = BComm c -> co_lang c = Some l -> told_language l s ->
    told_or ic v (co_unicode c) (co_desc c) (B "<no description>") d -> told_or ic v (co_unicode c) (co_text c) (B "<no text>") t ->
    frame_lines ind ic v f [f_id f ++ B " (" ++ s ++ B ", " ++ d ++ B "):"; t]
| fl_count c n : f_body f = BCount c -> 1 <= len c -> len c <= 4 -> (is_bytes c -> as_decimal n = Some (positional 256 c)) ->
    frame_lines ind ic v f [ind ++ f_id f ++ B ": " ++ n]
| fl_popm p e n h : f_body f = BPopm p -> told_ascii ic (po_email p) e -> as_decimal n = Some (po_rating p) -> in_hex (po_counter p) h ->
    frame_lines ind ic v f [ind ++ f_id f ++ B ": " ++ e; ind ++ B "rating: " ++ n; ind ++ B "counter: " ++ h]
| fl_cloud c : f_body f = BCloud c -> v <> V24 ->
    frame_lines ind ic v f ([ind ++ f_id f ++ B ": " ++ tc_owner c; ind ++ B "tags:"] ++
      map (fun kv => ind ++ fst kv ++ B ": " ++ separated (B ", ") (snd kv)) (tc_tags c))
| fl_encr e a m : f_body f = BEncr e -> told_ascii ic (en_email e) a -> en_method e = Some m ->
    frame_lines ind ic v f [ind ++ f_id f ++ B ": " ++ a; ind ++ B "Method symbol: " ++ [m];
      ind ++ B "Encryption data: " ++ flat_map (fun x => B "0" ++ [x]) (en_data e)]
| fl_priv p o n s : f_body f = BPriv p -> v <> V24 -> told_ascii ic (pr_email p) o -> pr_contents p <> [] ->
    as_decimal n = Some (len (pr_contents p)) -> byte_view (firstn 16 (pr_contents p)) s ->
    frame_lines ind ic v f [ind ++ f_id f ++ B " (" ++ o ++ B "): " ++ n ++ B " bytes beginning with:"; ind ++ s].

(** Frames at which a dump stops, what is said of them before it does, and how:
    [None] is an exception, which is reported. *)
Inductive stopping (ind : bytes) (ic : iconv_t) (v : version) (f : frame) : bytes -> option ubkind -> Prop :=
| st_private : v = V24 -> match f_body f with BCloud _ | BPriv _ => True | _ => False end -> stopping ind ic v f [] None
| st_long c : f_body f = BCount c -> 4 < len c -> stopping ind ic v f (ind ++ f_id f ++ B ": ") None
| st_none : f_body f = BCount [] -> stopping ind ic v f (ind ++ f_id f ++ B ": ") (Some Uninitialised)
| st_empty p o : v <> V24 -> f_body f = BPriv p -> pr_contents p = [] -> told_ascii ic (pr_email p) o ->
    stopping ind ic v f (ind ++ f_id f ++ B " (" ++ o ++ B "): 0 bytes beginning with:" ++ [10]) (Some OutOfBounds).

(** ** Tags *)
Definition named (v : version) (two later : string) : bytes := match v with V22 => B two | _ => B later end.
(** The text of a frame with that identifier. *)
Definition tag_tells (ic : iconv_t) (t : anytag) (id s : bytes) : Prop :=
  exists f, In f (with_id id (shown t)) /\ reads ic (any_version t) E_UTF_8 f s.
Definition has (t : anytag) (id : bytes) : Prop := with_id id (shown t) <> [].
Definition text_for (ic : iconv_t) (t : anytag) (id no s : bytes) : Prop :=
  has t id /\ tag_tells ic t id s \/ ~ has t id /\ s = no.
Definition if_told (ic : iconv_t) (t : anytag) (id before after s : bytes) : Prop :=
  has t id /\ (exists x, tag_tells ic t id x /\ s = before ++ x ++ after) \/ ~ has t id /\ s = [].
Definition line_if_told (ic : iconv_t) (t : anytag) (id before : bytes) (ls : list bytes) : Prop :=
  has t id /\ (exists x, tag_tells ic t id x /\ ls = [before ++ x]) \/ ~ has t id /\ ls = [].

(** Every text frame can be told. *)
Definition texts_read (ic : iconv_t) (t : anytag) : Prop :=
  forall f x, In f (shown t) -> f_body f = BText x -> exists s, text_as_str (any_version t) ic x E_UTF_8 NoFail None = Ok s.

Definition said_unsync (t : anytag) : option bool :=
  match t with A22 t => t2_unsync t | A23 t => t3_unsync t | A24 t => t4_unsync t end.
Definition said_flags (t : anytag) : N := match t with A22 t => flags22 t | A23 t => flags23 t | A24 t => flags24 t end.
Definition padding_of (t : anytag) : N := match t with A22 t => t2_pad t | A23 t => t3_pad t | A24 t => t4_pad t end.
Definition version_digit (v : version) : bytes := match v with V22 => B "2" | V23 => B "3" | V24 => B "4" end.

(** The summary of a tag. *)
Definition summary_lines (ind : bytes) (z : zlib) (ic : iconv_t) (rev : N) (t : anytag) (ls : list bytes) : Prop :=
  let v := any_version t in
  exists r k t' n h artist title album track year content encoder,
    as_decimal r = Some rev /\
    any_size z t false = Ok (k, t') /\ as_decimal n = Some (k mod 2 ^ 64) /\
    in_hex [said_flags t] h /\
    text_for ic t (named v "TP1" "TPE1") (B "<no artist>") artist /\
    text_for ic t (named v "TT2" "TIT2") (B "<no title>") title /\
    text_for ic t (named v "TAL" "TALB") (B "<no album>") album /\
    if_told ic t (named v "TRK" "TRCK") (B " (track ") (B ")") track /\
    text_for ic t (named v "TYE" "TYER") (B "<no year>") year /\
    line_if_told ic t (named v "TCO" "TCON") (ind ++ B "Content-type ") content /\
    line_if_told ic t (named v "TEN" "TENC") (ind ++ B "Encoded by ") encoder /\
    ls = [ind ++ B "ID3v2." ++ version_digit v ++ B "(." ++ r ++ B ") Tag:";
          ind ++ n ++ B " bytes, " ++ (match said_unsync t with Some true => B "unsynchronised" | _ => B "synchronised" end);
          ind ++ B "flags: 0x" ++ h;
          ind ++ artist ++ B " - " ++ title;
          ind ++ album ++ track ++ B ", " ++ year] ++ content ++ encoder.

(** The summary, the frames in order, and the padding. *)
Definition tag_lines (ind : bytes) (z : zlib) (ic : iconv_t) (rev : N) (t : anytag) (ls : list bytes) : Prop :=
  exists sum fls p, summary_lines ind z ic rev t sum /\
    Forall2 (frame_lines ind ic (any_version t)) (shown t) fls /\ as_decimal p = Some (padding_of t) /\
    ls = sum ++ concat fls ++ [ind ++ p ++ B " bytes of padding"].

(** ** The track *)
Definition track_lines (ind : bytes) (size : N) (md5 : bytes) (ls : list bytes) : Prop :=
  exists n h, as_decimal n = Some size /\ in_hex md5 h /\
    ls = [ind ++ n ++ B " bytes of track data:"; ind ++ B "MD5: " ++ h].

(** ** The ID3v1 tag *)
Definition told_v1 (ic : iconv_t) (e : enc) (b s : bytes) : Prop := to_string ic b e E_UTF_8 NoFail = Ok s.
Definition genre_told (expand : bool) (g : N) (unknown : bytes -> bytes) (s : bytes) : Prop :=
  exists n, as_decimal n = Some g /\
  s = if expand then match nth_error genres (N.to_nat g) with Some x => x | None => unknown n end else B "genre " ++ n.
Definition v1_lines (ind : bytes) (expand : bool) (ic : iconv_t) (e : enc) (t : id3v1_tag) (ls : list bytes) : Prop :=
  exists artist title album track year comment rest,
    told_v1 ic e (v_artist t) artist /\ told_v1 ic e (v_title t) title /\ told_v1 ic e (v_album t) album /\
    told_v1 ic e (v_year t) year /\ told_v1 ic e (v_comment t) comment /\
    (if v_v1_1 t then exists k n, v_track t = Some k /\ as_decimal n = Some k /\ track = B " (track " ++ n ++ B ")" else track = []) /\
    (if v_extended t
     then exists xg g s s' x x' k n, told_v1 ic e (v_ext_genre t) xg /\ genre_told expand (v_genre t) (fun _ => B "unrecognized genre") g /\
            v_start t = Some s /\ told_v1 ic e s s' /\ v_end t = Some x /\ told_v1 ic e x x' /\ v_speed t = Some k /\ as_decimal n = Some k /\
            rest = [ind ++ xg ++ B "/" ++ g; ind ++ s' ++ B "-" ++ x' ++ B ": speed " ++ n; []]
     else exists g, genre_told expand (v_genre t) (fun n => B "unknown genre " ++ n) g /\ rest = [ind ++ g]) /\
    ls = [ind ++ B "ID3v1" ++ (if v_v1_1 t then B ".1" else []) ++ (if v_extended t then B " (enhanced)" else []) ++ B ": " ++ artist ++ B " - " ++ title;
          ind ++ album ++ track ++ B ", " ++ year;
          ind ++ comment] ++ rest.

(** ** Files *)

(** The tags of a file: what stands at its beginning, one after the other, with
    their headers. *)
Definition tags_of (z : zlib) (passes : nat) (data : bytes) (l : list head) (ts : list anytag) : Prop :=
  tags_from data 0 l /\ tags_end 0 l <= len data /\
  Forall2 (fun h t => parse_any z passes (hd_version h) (hd_flags h) (tag_body data h) = Ok t) l ts.
(** The bytes between those and an ID3v1 tag at the end: their number and digest. *)
Definition track_of (md5 : bytes -> bytes) (data : bytes) (l : list head) (size : N) (sum : bytes) : Prop :=
  sum = md5 (slice (tags_end 0 l) (v1_start data - tags_end 0 l) data) /\
  (tags_end 0 l <= v1_start data -> len data < 2 ^ 63 -> size = v1_start data - tags_end 0 l).
(** The ID3v1 tag, if there is one. *)
Definition v1_of (data : bytes) (o : option id3v1_tag) : Prop := forall p e, fst (process_id3v1 (mkIs data p e 0)) = Ok o.

(** The lines for a file, of which [tags], [track] and [v1] say whether they are
    wanted. *)
Definition file_lines (ind : bytes) (expand : bool) (v1enc : enc) (z : zlib) (passes : nat) (md5 : bytes -> bytes) (ic : iconv_t)
    (tags track v1 : bool) (f : dfile) (ls : list bytes) : Prop :=
  exists l ts o size sum tl trl v1l,
    tags_of z passes (df_data f) l ts /\ track_of md5 (df_data f) l size sum /\ v1_of (df_data f) o /\
    (if tags then exists tls, Forall2 (fun ht => tag_lines ind z ic (hd_rev (fst ht)) (snd ht)) (combine l ts) tls /\ tl = concat tls
     else tl = []) /\
    (if track then track_lines ind size sum trl else trl = []) /\
    match o with Some t => if v1 then v1_lines ind expand ic v1enc t v1l else v1l = [] | None => v1l = [] end /\
    ls = [quoted_path (df_path f) ++ B ":"; B "Last Modified: " ++ df_time f] ++ tl ++ trl ++ v1l ++ [[]].

(** The files an argument stands for, in the order in which they are found. *)
Definition arg_files (a : darg) : list (option dfile) := match a with DMissing => [] | DFile f => [Some f] | DDir fs => fs end.
