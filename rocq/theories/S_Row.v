(** * Specification: the fields of a frame printed by itself. *)
From Verif Require Import Base M_Ints M_Id3v1 M_Payload M_Cloud M_Frame M_Charset M_Lookup M_Cmds M_Csv M_Report M_Row S_Csv.
#[local] Open Scope N_scope.

(** Bytes in hexadecimal, two digits each. *)
Definition hex_of (l : bytes) : bytes := flat_map (fun x => width2 (number 16 x)) l.

(** The fields: what is in the frame, texts in the stream's encoding, numbers in
    decimal, binary data in hexadecimal. *)
Definition one (o : outcome bytes) : outcome (list bytes) := let* x := o in Ok [x].
Definition frame_fields (s : rowstyle) (ic : iconv_t) (v : version) (f : frame) : outcome (list bytes) :=
  let src d := match rs_v2enc s with Some e => e | None => d end in
  match f_body f with
  | BUnknown _ => Ok [f_id f]
  | BText t => one (text_as_str v ic t (rs_dst s) (rs_rsp s) (rs_v2enc s))
  | BUfid u => let* o := converted ic (uf_owner u) (src E_ISO_8859_1) (rs_dst s) (rs_rsp s) in
               Ok [o; B "0x" ++ hex_of (uf_id u)]
  | BEncr e => let* o := converted ic (en_email e) (src E_ISO_8859_1) (rs_dst s) (rs_rsp s) in
               let* m := M_Id3v1.init (en_method e) in
               Ok [o; number 10 m; B "0x" ++ hex_of (en_data e)]
  | BTxxx t => let* d := user_part ic v (ud_unicode t) (ud_desc t) in
               let* x := user_part ic v (ud_unicode t) (ud_text t) in
               Ok [number 10 (ud_unicode t); d; x]
  | BComm c => let* l := M_Id3v1.init (co_lang c) in
               let* d := comment_part s ic v c (co_desc c) in
               let* x := comment_part s ic v c (co_text c) in
               Ok [takeN 3 l; d; x]
  | BCount c => let* n := counter_value c in Ok [number 10 n]
  | BPopm p => let* e := converted ic (po_email p) (src (match v with V22 => rs_pop22 s | _ => E_ISO_8859_1 end)) (rs_dst s) (rs_rsp s) in
               Ok [e; number 10 (po_rating p); hex_of (po_counter p)]
  | BCloud c => let* o := to_string ic (tc_owner c) E_UTF_8 (rs_dst s) (rs_rsp s) in
                let* t := to_string ic (urlencoded (tc_tags c)) E_UTF_8 (rs_dst s) (rs_rsp s) in
                Ok [o; t]
  | BPriv p => one (converted ic (pr_email p) E_ASCII E_UTF_8 NoFail)
  end.

(** Frames the CSV printer does well by: there is a function for them; they have no
    binary data that goes to the stream as it is; what is not escaped needs no
    escaping; and a count fits the type it is printed as. *)
Definition prints_well (lax : bool) (sep : N) (ic : iconv_t) (v : version) (f : frame) : Prop :=
  match f_body f with
  | BUnknown _ => plain_field lax sep true (f_id f)
  | BUfid u => uf_id u = []
  | BEncr e => en_data e = []
  | BComm c => forall l, co_lang c = Some l -> plain_field lax sep false (takeN 3 l)
  | BCount c => forall n, counter_value c = Ok n -> n < 2 ^ 32
  | BCloud _ => v <> V24
  | BPriv p => v <> V24 /\ forall x, converted ic (pr_email p) E_ASCII E_UTF_8 NoFail = Ok x -> plain_field lax sep true x
  | _ => True
  end.
(** Frames with a number printed in whatever base the stream is in, for which it
    matters. *)
Definition has_number (f : frame) : Prop :=
  match f_body f with
  | BEncr e => exists m, en_method e = Some m /\ 10 <= m
  | BTxxx t => 10 <= ud_unicode t
  | BCount c => exists n, counter_value c = Ok n /\ 10 <= n
  | _ => False
  end.
Definition is_popm (f : frame) : Prop := match f_body f with BPopm _ => True | _ => False end.

(** One frame to a line. *)
Definition frame_lines (l : list (version * frame)) : list item :=
  flat_map (fun vf => [IFrame (fst vf) (snd vf); ILit [newline]]) l.
Fixpoint read_rows (lax : bool) (sep : N) (n : nat) (l : bytes) : option (list (list bytes)) :=
  match n with
  | O => match l with [] => Some [] | _ => None end
  | S k => match read_record lax sep l with
           | Some (fs, rest) => match read_rows lax sep k rest with Some r => Some (fs :: r) | None => None end
           | None => None
           end
  end.

(** The base the stream is left in: sixteen after track data, a popularimeter or
    [std::hex], ten after [std::dec]. *)
Definition item_base (b : N) (i : item) : N :=
  match i with
  | IFrame _ f => match f_body f with BPopm _ => 16 | _ => b end
  | ILit _ => b
  | IDec => 10
  | IHex | ITrack _ _ => 16
  end.
Definition left_in (b : N) (l : list item) : N := fold_left item_base l b.

(** Reading tab-delimited rows: fields run to the next separator or line feed. *)
Fixpoint tdf_read (sep : N) (a l : bytes) : list bytes * bytes :=
  match l with
  | [] => ([a], [])
  | c :: r => if c =? newline then ([a], r)
              else if c =? sep then let '(fs, rest) := tdf_read sep [] r in (a :: fs, rest)
              else tdf_read sep (a ++ [c]) r
  end.
Fixpoint tdf_read_rows (sep : N) (n : nat) (l : bytes) : option (list (list bytes)) :=
  match n with
  | O => match l with [] => Some [] | _ => None end
  | S k => match tdf_read sep [] l with
           | (fs, rest) => match tdf_read_rows sep k rest with Some r => Some (fs :: r) | None => None end
           end
  end.
Definition tdf_field (sep : N) (f : bytes) : Prop := ~ In sep f /\ ~ In newline f.
(** Frames the TDF printer does well by: as above, except that nothing is escaped. *)
Definition tdf_well (v : version) (f : frame) : Prop :=
  match f_body f with
  | BUfid u => uf_id u = []
  | BEncr e => en_data e = []
  | BCount c => forall n, counter_value c = Ok n -> n < 2 ^ 32
  | BCloud _ | BPriv _ => v <> V24
  | _ => True
  end.
