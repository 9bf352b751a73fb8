(** * Specification: the JSON objects that tags are to be printed as. *)
From Verif Require Import Base M_Payload M_Cloud M_Csv S_Json M_Json.

Definition jnum (n : N) : json := JNum (number 10 n).

(** The object for a frame: identifier, size, and what is in it. *)
Definition cloud_object (kv : bytes * list bytes) : json :=
  match snd kv with
  | [] => JStr (fst kv)
  | [v] => JObj [(fst kv, JStr v)]
  | vs => JObj [(fst kv, JArr (map JStr vs))]
  end.
Definition frame_object (f : fview) : json :=
  let start id size := [(B "id", JStr id); (B "size", jnum size)] in
  match f with
  | FUnknown id size => JObj (start id size)
  | FText id size text => JObj (start id size ++ [(B "text", JStr text)])
  | FUfid id size owner => JObj (start id size ++ [(B "owner", JStr owner)])
  | FDesc id size desc text => JObj (start id size ++ [(B "description", JStr desc); (B "text", JStr text)])
  | FCount size count => JObj (start (B "PCNT") size ++ [(B "count", jnum count)])
  | FPopm id size email rating count =>
      JObj (start id size ++ [(B "email", JStr email); (B "rating", jnum rating); (B "count", jnum count)])
  | FCloud id size owner tags =>
      JObj (start id size ++ [(B "owner", JStr owner); (B "cloud", JArr (map cloud_object tags))])
  | FEncr id size email | FPriv id size email => JObj (start id size ++ [(B "email", JStr email)])
  end.

(** The three kinds of frames that are misprinted: file identifiers, play counts
    and tag clouds. *)
Definition misprinted (f : fview) : Prop :=
  match f with FUfid _ _ _ | FCount _ _ | FCloud _ _ _ _ => True | _ => False end.

(** The texts in a frame of another kind. *)
Definition frame_texts (f : fview) : list bytes :=
  match f with
  | FText _ _ t => [t]
  | FDesc _ _ d t => [d; t]
  | FPopm _ _ e _ _ | FEncr _ _ e | FPriv _ _ e => [e]
  | _ => []
  end.
Definition well_printed (f : fview) : Prop := ~ misprinted f /\ Forall printable (frame_texts f).

(** Identifiers that need no escapes, and sizes that fit an [int]; a UFID frame's
    owner ends before its first NUL. *)
Definition usual_frame (f : fview) : Prop :=
  match f with
  | FUnknown id size | FText id size _ | FUfid id size _ | FDesc id size _ _ | FPopm id size _ _ _
  | FCloud id size _ _ | FEncr id size _ | FPriv id size _ => plain id /\ size < 2 ^ 31
  | FCount _ _ => True
  end /\
  match f with FUfid _ _ owner => ~ In 0 owner | _ => True end.
Definition usual_tag (t : jtag) : Prop := Forall usual_frame (j_frames t).

(** The object for an ID3v2.3 tag; [u] is what is said of unsynchronisation. *)
Definition tag_object (u : bool) (t : jtag) : json :=
  JObj [(B "version", JStr (B "2.3")); (B "unsynchronised", JBool u); (B "flags", jnum (j_flags t));
        (B "size", jnum (j_size t)); (B "padding", jnum (j_padding t)); (B "frames", JArr (map frame_object (j_frames t)))].

(** Bytes written with two hexadecimal digits each. *)
Fixpoint from_hex (l : bytes) : option bytes :=
  match l with
  | [] => Some []
  | a :: b :: r =>
      match hex_value a, hex_value b, from_hex r with
      | Some a, Some b, Some t => Some (16 * a + b :: t)
      | _, _, _ => None
      end
  | _ => None
  end.

(** The object for the track. *)
Definition track_object (digits : bytes) : json := JObj [(B "md5", JStr digits)].

(** The object for an ID3v1 tag. *)
Definition v1_version (t : j1tag) : bytes :=
  B "1" ++ (if j1_1 t then B ".1" else []) ++ (match j1_enh t with Some _ => B "-enh" | None => [] end).
Definition v1_object (t : j1tag) : json :=
  JObj ([(B "version", JStr (v1_version t)); (B "album", JStr (j1_album t)); (B "artist", JStr (j1_artist t));
         (B "comment", JStr (j1_comment t)); (B "genre", jnum (j1_genre t)); (B "title", JStr (j1_title t));
         (B "year", JStr (j1_year t))] ++
        (match j1_track t with Some n => [(B "track", jnum n)] | None => [] end) ++
        (match j1_enh t with Some g => [(B "enhanced-genre", JStr g)] | None => [] end)).
Definition v1_texts (t : j1tag) : list bytes :=
  [j1_artist t; j1_comment t; j1_title t; j1_year t] ++ (match j1_enh t with Some g => [g] | None => [] end).
