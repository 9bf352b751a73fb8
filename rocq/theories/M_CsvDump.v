(** * Model: the dump command in CSV. *)
From Verif Require Import Base M_Ints M_Stream M_Id3v1 M_Payload M_Frame M_Tag22 M_Tag23 M_Tag24 M_Charset M_Lookup M_Mp3 M_Track M_Read
  M_Tagset M_Process M_Cmds M_Csv M_Report M_Dump.
#[local] Open Scope N_scope.

(** src/dump.cc:243-262: what is printed.  The printer is that of the CSV reports, with its
    default separator (src/dump.cc:166); the parts go to the stream one after the
    other. *)
Definition dump_csv_parts (e : enc) (z : zlib) (w : world) (ncomm : nat) (p : parts) (f : dfile)
    (v2 : list (N * anytag)) (tr : track) (v1 : option id3v1_tag) : pr :=
  pthen (put (quoted_path (df_path f) ++ B ":" ++ line_end ++ B "Last Modified: " ++ df_time f ++ line_end))
  (pthen (if p_v2 p then pall (map (fun rt => print_tag2 csv_style z w ncomm (fst rt) (snd rt)) v2) else put [])
  (pthen (if p_track p then put (pprint_track_data comma (tr_size tr) (tr_md5 tr)) else put [])
  (pthen (match v1 with Some t => if p_v1 p then print_tag1 csv_style w e t else put [] | None => put [] end)
         (put line_end)))).

(** src/dump.cc:231-268: one file; [false] is a failure reported on the standard
    error. *)
Definition dump_csv_file (e : enc) (z : zlib) (passes : nat) (md5 : bytes -> bytes) (w : world) (ncomm : nat) (p : parts) (f : dfile) : bytes * outcome bool :=
  match dump_read z passes md5 (df_data f) with
  | Ok (v2, tr, v1) =>
      match dump_csv_parts e z w ncomm (all_parts p) f v2 tr v1 with
      | (s, Ok _) => (s, Ok true)
      | (s, Throw _) => (s, Ok false)
      | (s, UB u) => (s, UB u)
      | (s, NonTerm) => (s, NonTerm)
      end
  | Throw _ => ([], Ok false)
  | UB u => ([], UB u)
  | NonTerm => ([], NonTerm)
  end.
