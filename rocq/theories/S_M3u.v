(** * Specification: extended M3U playlists, and what should be in them. *)
From Verif Require Import Base M_Stream M_Charset M_Payload M_Frame M_Id3v1 M_Lookup M_Mp3 M_Read M_Fs M_Tagset M_Process M_Cmds M_M3u S_Lookup S_Cmds S_Tagset S_Read M_Split S_Dirent.
#[local] Open Scope N_scope.

(** ** Reading a playlist *)

(** The lines of a text; the last need not be terminated. *)
Fixpoint lines (l : bytes) : list bytes :=
  match l with
  | [] => []
  | c :: r => if c =? 10 then [] :: lines r
              else match lines r with [] => [[c]] | x :: t => (c :: x) :: t end
  end.

(** A directive with the duration and the title: #EXTINF:digits,title. *)
Fixpoint after (p l : bytes) : option bytes :=
  match p, l with
  | [], _ => Some l
  | a :: p, b :: l => if a =? b then after p l else None
  | _, [] => None
  end.
Fixpoint digits (l : bytes) : bytes * bytes :=
  match l with
  | c :: r => if (48 <=? c) && (c <=? 57) then (c :: fst (digits r), snd (digits r)) else ([], l)
  | [] => ([], [])
  end.
Definition extinf (line : bytes) : option (N * bytes) :=
  match after (B "#EXTINF:") line with
  | None => None
  | Some r => match digits r with
              | ((_ :: _) as ds, 44 :: title) => Some (value_of ds, title)
              | _ => None
              end
  end.

(** Any other line that starts with # is a comment, empty lines do not count; what
    is left are the paths, each with the directive before it. *)
Fixpoint listed (info : option (N * bytes)) (ls : list bytes) : list (option (N * bytes) * bytes) :=
  match ls with
  | [] => []
  | [] :: r => listed info r
  | ((35 :: _) as l) :: r => listed (match extinf l with Some x => Some x | None => info end) r
  | l :: r => (info, l) :: listed None r
  end.
Definition playlist (text : bytes) : list (option (N * bytes) * bytes) := listed None (lines text).

(** ** What is to be told of a file *)

(** [n] is the number of seconds closest to the fraction. *)
Definition nearest (n : N) (d : N * N) : Prop := 2 * n * snd d <= 2 * fst d + snd d /\ 2 * fst d + snd d < 2 * (n + 1) * snd d.

(** The frame's text, as told in the encoding asked for; that of a field. *)
Definition told (w : world) (o : m3u_opts) (v : version) (f : frame) (r : outcome bytes) : Prop :=
  exists t, f_body f = BText t /\ text_as_str v (w_ic w) t (m3_dst o) (m3_rsp o) (m3_src o) = r.
Definition field_told (w : world) (src : enc) (o : m3u_opts) (field : bytes) (r : outcome bytes) : Prop :=
  to_string (w_ic w) field src (m3_dst o) (m3_rsp o) = r.

(** An artist and a title. *)
Definition names_both (t : anytag) : Prop :=
  with_id (artist_id (any_version t)) (shown t) <> [] /\ with_id (title_id (any_version t)) (shown t) <> [].

(** The first ID3v2 tag with both. *)
Definition first_with_both (v2 : list anytag) (t : anytag) : Prop :=
  exists a b, v2 = a ++ t :: b /\ Forall (fun u => ~ names_both u) a /\ names_both t.

(** The texts [a], [b] of an artist and a title frame of that tag. *)
Definition v2_names (w : world) (o : m3u_opts) (v2 : list anytag) (a b : bytes) : Prop :=
  exists t f g, first_with_both v2 t /\
    In f (with_id (artist_id (any_version t)) (shown t)) /\ told w o (any_version t) f (Ok a) /\
    In g (with_id (title_id (any_version t)) (shown t)) /\ told w o (any_version t) g (Ok b).
Definition v1_names (w : world) (src : enc) (o : m3u_opts) (v1 : option id3v1_tag) (a b : bytes) : Prop :=
  exists t, v1 = Some t /\ field_told w src o (v_artist t) (Ok a) /\ field_told w src o (v_title t) (Ok b).

(** One of the texts that would be used cannot be converted. *)
Definition v2_garbled (w : world) (o : m3u_opts) (v2 : list anytag) : Prop :=
  exists t f, first_with_both v2 t /\
    (In f (with_id (artist_id (any_version t)) (shown t)) \/ In f (with_id (title_id (any_version t)) (shown t))) /\
    told w o (any_version t) f (Throw IconvError).
Definition v1_garbled (w : world) (src : enc) (o : m3u_opts) (v1 : option id3v1_tag) : Prop :=
  exists t, v1 = Some t /\ (field_told w src o (v_artist t) (Throw IconvError) \/ field_told w src o (v_title t) (Throw IconvError)).

(** The title to display: "artist - title" by the ID3v2 tag, else by the ID3v1 tag,
    where neither is empty; else the name of the file. *)
Inductive display (w : world) (src : enc) (o : m3u_opts) (v2 : list anytag) (v1 : option id3v1_tag) (name : bytes) : bytes -> Prop :=
| by_v2 a b : v2_names w o v2 a b -> a <> [] -> b <> [] -> display w src o v2 v1 name (a ++ B " - " ++ b)
| by_v1 a b : ((forall t, ~ first_with_both v2 t) \/ exists c d, v2_names w o v2 c d /\ (c = [] \/ d = [])) ->
    v1_names w src o v1 a b -> a <> [] -> b <> [] -> display w src o v2 v1 name (a ++ B " - " ++ b)
| by_name : ((forall t, ~ first_with_both v2 t) \/ exists c d, v2_names w o v2 c d /\ (c = [] \/ d = [])) ->
    (v1 = None \/ exists c d, v1_names w src o v1 c d /\ (c = [] \/ d = [])) -> display w src o v2 v1 name name
| by_name_garbled : v2_garbled w o v2 \/ v1_garbled w src o v1 -> display w src o v2 v1 name name.

(** An entry that a playlist can hold: a title and a path on one line each, and a path
    that is not taken for a comment. *)
Definition listable (title path : bytes) : Prop :=
  ~ In 10 title /\ ~ In 10 path /\ path <> [] /\ hd 0 path <> 35.

(** The duration of the audio after the tags. *)
Definition lasts (data : bytes) (d : N * N) : Prop :=
  exists l pos e, tags_from data 0 l /\ get_mp3_duration (mkIs data (tags_end 0 l) goodbit 0) = (Ok d, mkIs data pos e 0).

(** What the entry for a file with these contents should tell. *)
Definition tells_file (z : zlib) (passes : nat) (w : world) (src : enc) (o : m3u_opts) (path data : bytes) (n : N) (title : bytes) : Prop :=
  exists v2 v1 d, read_tagset z passes data = Ok (v2, v1) /\ lasts data d /\ nearest n d /\ display w src o v2 v1 (stem path) title.

(** That can be told: the tags and the duration can be read, and the texts for the
    title are in encodings that are known. *)
Definition readable (w : world) (o : m3u_opts) (v2 : list anytag) : Prop :=
  forall t f r, first_with_both v2 t ->
    In f (with_id (artist_id (any_version t)) (shown t)) \/ In f (with_id (title_id (any_version t)) (shown t)) ->
    told w o (any_version t) f r -> (exists s, r = Ok s) \/ r = Throw IconvError.
Definition tellable (z : zlib) (passes : nat) (w : world) (o : m3u_opts) (data : bytes) : Prop :=
  exists v2 v1 d, read_tagset z passes data = Ok (v2, v1) /\ lasts data d /\ readable w o v2.

(** Text that ends a line. *)
Definition ended (l : bytes) : Prop := l = [] \/ exists x, l = x ++ [10].

(** ** The file written to *)

(** It is there, or there is a directory for it. *)
Definition opens (fs : fsys) (k : key) : Prop :=
  is_dir fs k = false /\ ((exists b, find_node k fs = Some (File b)) \/ find_node k fs = None /\ is_dir fs (removelast k) = true).
(** What is in it before the first line is written. *)
Definition kept (app : bool) (fs : fsys) (k : key) : bytes :=
  match find_node k fs with Some (File b) => if app then b else [] | _ => [] end.
(** The files and directories once it is there. *)
Definition opened (fs : fsys) (k : key) : fsys := set_node k (File []) fs.

(** Nothing else has changed. *)
Definition only (k : key) (fs s : fsys) : Prop := forall k', k' <> k -> find_node k' s = find_node k' fs.
