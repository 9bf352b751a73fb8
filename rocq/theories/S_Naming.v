(** * Specification: the names that files get from their tags. *)
From Verif Require Import Base M_Ints M_Stream M_Id3v1 M_Payload M_Frame M_Tag22 M_Tag23 M_Tag24 M_Charset M_Lookup M_Mp3 M_Track M_Read
  M_Fs M_Tagset M_Process M_Cmds M_Report M_Split M_Rename M_Tbt M_Naming S_Lookup S_Cmds S_Tagset S_Rename S_Tbt S_Tbt2.
#[local] Open Scope N_scope.

(** The text that a tag has under an identifier, in UTF-8: that of a text frame with
    it, or none if there is no such frame. *)
Definition text_under (ic : iconv_t) (t : anytag) (id : bytes) (x : option bytes) : Prop :=
  match with_id id (shown t) with
  | [] => x = None
  | l => exists f u s, In f l /\ f_body f = BText u /\ text_as_str (any_version t) ic u E_UTF_8 NoFail None = Ok s /\ x = Some s
  end.
Definition texts_under (ic : iconv_t) (t : anytag) (T : v2texts) : Prop :=
  let v := any_version t in
  text_under ic t (album_id v) (t_album T) /\ text_under ic t (performer_id v) (t_artist T) /\
  text_under ic t (content_id v) (t_content T) /\ text_under ic t (name_id v) (t_title T) /\
  text_under ic t (encoder_id v) (t_encoded T) /\ text_under ic t (date_id v) (t_year T).
(** The identifiers, by version. *)
Definition looked_at (v : version) : list bytes :=
  match v with
  | V22 => [B "TAL"; B "TP1"; B "TCO"; B "TT2"; B "TEN"; B "TYE"]
  | _ => [B "TALB"; B "TPE1"; B "TCON"; B "TIT2"; B "TENC"; B "TYER"]
  end.

(** [c] is what there is to know of a file with this name and these bytes. *)
Definition known (z : zlib) (passes : nat) (md5 : bytes -> bytes) (ic : iconv_t) (name data : bytes) (c : context) : Prop :=
  exists v2 tr v1, report_read z passes md5 data = Ok (v2, tr, v1) /\
    c_name c = name /\ c_size c = len data /\ c_md5 c = tr_md5 tr /\
    match v2, c_v2 c with
    | Some (_, t), Some T => texts_under ic t T
    | None, None => True
    | _, _ => False
    end /\
    match v1, c_v1 c with
    | Some t, Some F => o_album F = v_album t /\ o_artist F = v_artist t /\ o_title F = v_title t /\ o_year F = v_year t /\
                        o_genre F = v_genre t /\ o_enh_genre F = v_ext_genre t
    | None, None => True
    | _, _ => False
    end.

(** How the default template spells an artist or a title: with a leading article
    moved to the end, and the first letter in upper case. *)
Definition spelt (ct : ctype) (a s : bytes) : Prop := exists b, article ct MakeSuffix a b /\ cased ct Capitalize b s.

(** ** Several files *)
(** A file, where it is, what it holds, and the name it is to get. *)
Record renaming := mkRenaming { rn_path : bytes; rn_dir : list bytes; rn_old : bytes; rn_data : bytes; rn_new : bytes }.
Definition rn_source (x : renaming) : list bytes := rn_dir x ++ [rn_old x].
Definition rn_target (cwd : bytes) (vm : rename_vm) (x : renaming) : list bytes :=
  (match given_output vm with [] => rn_dir x | d => resolve cwd d end) ++ [rn_new x].
(** It is there, and there is room for it. *)
Definition well_placed (cwd : bytes) (vm : rename_vm) (fs : fsys) (x : renaming) : Prop :=
  ends_in_name (rn_path x) (rn_old x) /\ plain_name (rn_old x) /\ plain_name (rn_new x) /\ resolve cwd (rn_path x) = rn_source x /\
  find_node (rn_source x) fs = Some (File (rn_data x)) /\
  is_dir fs (match given_output vm with [] => rn_dir x | d => resolve cwd d end) = true /\ find_node (rn_target cwd vm x) fs = None.
(** The name is the one that the template stands for. *)
Definition well_named (z : zlib) (passes : nat) (md5 : bytes -> bytes) (w : world) (ct : ctype) (cwd : bytes) (l : list term) (x : renaming) : Prop :=
  exists c ss, context_of z passes md5 w (filename (absolute cwd (rn_path x))) (rn_data x) = Ok c /\
    Forall (regular (w_ic w) c) l /\ Forall2 (shows ct (w_ic w) c) l ss /\ rn_new x = concat ss.
