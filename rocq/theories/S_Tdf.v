(** * Specification: what a report says of a file, and reading its rows back. *)
From Verif Require Import Base M_Ints M_Stream M_Id3v1 M_Payload M_Frame M_Tag22 M_Tag23 M_Tag24 M_Charset M_Lookup M_Mp3 M_Track M_Read
  M_Tagset M_Process M_Cmds M_Csv M_Report S_Lookup S_Cmds S_Csv S_Report.
#[local] Open Scope N_scope.

(** ** Delimited text: lines end with a line feed; the delimiter stands between
    fields. *)
Fixpoint read_line (sep : N) (l : bytes) : option (list bytes * bytes) :=
  match l with
  | [] => None
  | c :: r => if c =? 10 then Some ([[]], r)
              else match read_line sep r with
                   | Some (f :: fs, rest) => Some (if c =? sep then [] :: f :: fs else (c :: f) :: fs, rest)
                   | _ => None
                   end
  end.
Definition plain_in (sep : N) (f : bytes) : Prop := ~ In sep f /\ ~ In 10 f.
Definition occurrences (c : N) (f : bytes) : nat := count_occ N.eq_dec f c.

(** ** What is to be said of a tag *)

(** The identifiers of artist, title, album, content type, encoder, year and
    language, as the report asks for them.  (The year is TYE in ID3v2.2, really.) *)
Definition asked (v : version) : list bytes :=
  match v with
  | V22 => map B ["TP1"; "TT2"; "TAL"; "TCO"; "TEN"; "TYR"; "TLA"]%string
  | _ => map B ["TPE1"; "TIT2"; "TALB"; "TCON"; "TENC"; "TYER"; "TLAN"]%string
  end.

(** The text of a frame; of a frame that is not known, its name. *)
Definition says (ic : iconv_t) (v : version) (f : frame) (s : bytes) : Prop :=
  reads ic v E_UTF_8 f s \/ exists b, f_body f = BUnknown b /\ s = f_id f.
(** The text of a comment. *)
Definition remarks (ic : iconv_t) (v : version) (f : frame) (s : bytes) : Prop :=
  exists c, f_body f = BComm c /\
  (co_text c = [] /\ s = [] \/
   co_text c <> [] /\ exists u, co_unicode c = Some u /\ text_as_str v ic (mkText u (co_text c)) E_UTF_8 NoFail None = Ok s).

Definition tag_says (ic : iconv_t) (v : version) (fs : list frame) (id : bytes) (x : option bytes) : Prop :=
  match with_id id fs with
  | [] => x = None
  | l => exists f s, In f l /\ says ic v f s /\ x = Some s
  end.
Definition number_of (v : version) : N := match v with V22 => 2 | V23 => 3 | V24 => 4 end.
Definition answers (z : zlib) (ic : iconv_t) (ncomm : nat) (rev : N) (t : anytag) (V : tagview) : Prop :=
  let v := any_version t in
  tv_version V = number_of v /\ tv_revision V = rev /\
  (exists n t', any_size z t false = Ok (n, t') /\ tv_size V = n mod 2 ^ 64) /\
  tv_flags V = match t with A22 t => flags22 t | A23 t => flags23 t | A24 t => flags24 t end /\
  tv_unsync V = match t with A22 t => t2_unsync t | A23 t => t3_unsync t | A24 t => t4_unsync t end /\
  Forall2 (tag_says ic v (shown t)) (asked v) (tv_texts V) /\
  tv_pcnt V = N.of_nat (length (with_id (count_id v) (shown t))) /\
  (forall f, with_id (count_id v) (shown t) = [f] -> exists b, f_body f = BCount b /\ counter_value b = Ok (tv_plays V)) /\
  tv_ncomm V = N.of_nat (length (with_id (comm_id v) (shown t))) /\
  Forall2 (remarks ic v) (firstn ncomm (with_id (comm_id v) (shown t))) (tv_comments V).

(** Of an ID3v1 tag. *)
Definition answers_v1 (ic : iconv_t) (v1enc : enc) (t : id3v1_tag) (W : v1view) : Prop :=
  w1_1 W = v_v1_1 t /\ w1_ext W = v_extended t /\ w1_genre W = v_genre t /\
  Forall2 (fun field s => to_string ic field v1enc E_UTF_8 NoFail = Ok s)
    [v_artist t; v_title t; v_album t; v_year t; v_comment t]
    [w1_artist W; w1_title W; w1_album W; w1_year W; w1_comment W].

Definition optionally {A V} (P : A -> V -> Prop) (a : option A) (x : option V) : Prop :=
  match a, x with None, None => True | Some a, Some x => P a x | _, _ => False end.

(** Everything that is asked can be told: every text, the first comments, the size,
    and the count if there is one. *)
Definition tellable (z : zlib) (ic : iconv_t) (ncomm : nat) (t : anytag) : Prop :=
  let v := any_version t in
  (exists r, any_size z t false = Ok r) /\
  (forall id f, In id (asked v) -> In f (with_id id (shown t)) -> exists s, says ic v f s) /\
  (forall f, with_id (count_id v) (shown t) = [f] -> exists b n, f_body f = BCount b /\ counter_value b = Ok n) /\
  (forall f, In f (firstn ncomm (with_id (comm_id v) (shown t))) -> exists s, remarks ic v f s).
Definition tellable_v1 (ic : iconv_t) (v1enc : enc) (t : id3v1_tag) : Prop :=
  forall field, In field [v_artist t; v_title t; v_album t; v_year t; v_comment t] ->
  exists s, to_string ic field v1enc E_UTF_8 NoFail = Ok s.
Definition if_any {A} (P : A -> Prop) (a : option A) : Prop := match a with None => True | Some a => P a end.

(** ** Rows *)

(** The texts of a row that come from the file: its names in quotes, and those of
    its tags. *)
Definition name_texts (no_dir : bool) (dir name : bytes) : list bytes :=
  (if no_dir then [] else [quoted_path dir]) ++ [quoted_path name].
Definition v2_texts (V : option tagview) : list bytes :=
  match V with None => [] | Some V => map text_field (tv_texts V) ++ tv_comments V end.
Definition v1_texts (W : option v1view) : list bytes :=
  match W with None => [] | Some W => [w1_artist W; w1_title W; w1_album W; w1_year W; w1_comment W] end.

(** The headings of the delimited report. *)
Definition tdf_headings (no_dir : bool) (ncomm : nat) : list bytes :=
  removelast (headings no_dir ncomm) ++ [B "ID3v1 Genre"].

(** A number of thousandths nearest to [size] bytes in megabytes. *)
Definition nearest_thousandth (k size : N) : Prop :=
  2 * k * 2 ^ 20 <= 2 * size * 1000 + 2 ^ 20 /\ 2 * size * 1000 <= 2 * k * 2 ^ 20 + 2 ^ 20.

(** ** Whole reports *)

(** Reading line after line. *)
Inductive read_lines (sep : N) : bytes -> list (list bytes) -> Prop :=
| rl_end : read_lines sep [] []
| rl_line l fs rest r : read_line sep l = Some (fs, rest) -> read_lines sep rest r -> read_lines sep l (fs :: r).

(** The files a report is about: those named, and those below the directories
    named whose names end in ".mp3". *)
Definition named_mp3 (f : rfile) : Prop := exists p, rf_name f = p ++ B ".mp3".
Inductive keeps {A} (P : A -> Prop) : list A -> list A -> Prop :=
| kp_none : keeps P [] []
| kp_in f fs l : P f -> keeps P fs l -> keeps P (f :: fs) (f :: l)
| kp_out f fs l : ~ P f -> keeps P fs l -> keeps P (f :: fs) l.
Inductive visits : list rarg -> list rfile -> Prop :=
| vs_none : visits [] []
| vs_file f args l : visits args l -> visits (RFile f :: args) (f :: l)
| vs_dir fs sel args l : keeps named_mp3 fs sel -> visits args l -> visits (RDir fs :: args) (sel ++ l).

(** What a row says of a file: of the first tag, the track, and the ID3v1 tag. *)
Record entry := mkEntry { e_v2 : option tagview; e_size : N; e_md5 : bytes; e_v1 : option v1view }.
Definition describes (z : zlib) (passes : nat) (md5 : bytes -> bytes) (w : world) (v1enc : enc) (ncomm : nat) (f : rfile) (x : entry) : Prop :=
  exists v2 tr v1, report_read z passes md5 (rf_data f) = Ok (v2, tr, v1) /\
    optionally (fun p V => answers z (w_ic w) ncomm (fst p) (snd p) V) v2 (e_v2 x) /\
    optionally (answers_v1 (w_ic w) v1enc) v1 (e_v1 x) /\
    e_size x = tr_size tr /\ e_md5 x = tr_md5 tr.
Definition texts_in (no_dir : bool) (f : rfile) (x : entry) : list bytes :=
  name_texts no_dir (rf_dir f) (rf_name f) ++ v2_texts (e_v2 x) ++ v1_texts (e_v1 x).
(** The fields of its row in the delimited report. *)
Definition row_of (no_dir : bool) (ncomm : nat) (f : rfile) (x : entry) : list bytes :=
  row_fields no_dir ncomm (quoted_path (rf_dir f)) (quoted_path (rf_name f)) (mb_text (len (rf_data f)))
    (e_v2 x) (e_size x) (e_md5 x) (e_v1 x).
