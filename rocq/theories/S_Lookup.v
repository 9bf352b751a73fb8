(** * Specification: what lookups in a tag should answer. *)
From Coq Require Import Sorting.Permutation.
From Verif Require Import Base M_Charset M_Payload M_Frame M_TextId M_Lookup.

(** The frames of a tag, in order, as iteration over the tag shows them. *)
Definition frames_of (st : ltag) : list frame := map (fun x => c_frame (snd x)) (l_frames st).
Definition with_id (id : bytes) (fs : list frame) : list frame := filter (fun f => bytes_eqb (f_id f) id) fs.

(** The number of frames with an identifier is right, and each of the answers
    that lookup by that identifier may give is a frame of the tag with it. *)
Definition ids_agree (st : ltag) : Prop := forall id,
  has_frame st id = N.of_nat (length (with_id id (frames_of st))) /\
  (with_id id (frames_of st) <> [] ->
   forall c, exists f, get_frame c st id = Ok f /\ In f (with_id id (frames_of st))).

(** A text lookup never goes through a dead pointer; what it finds is the text of
    a text frame of the tag with that identifier. *)
Definition texts_sound (st : ltag) : Prop := forall c id,
  find_text c st id = Throw UnknownFrame \/
  exists f t, find_text c st id = Ok t /\ In f (with_id id (frames_of st)) /\ f_body f = BText t.

(** Every text frame of the tag can be found. *)
Definition texts_complete (st : ltag) : Prop := forall f t,
  In f (frames_of st) -> f_body f = BText t -> forall c, exists t', find_text c st (f_id f) = Ok t'.

(** The comments, counters and popularimeters reported are those of the tag. *)
Definition lists_sound (v : version) (st : ltag) : Prop :=
  (exists l, get_comments st = Ok l /\ forall b, In b l -> exists f, In f (with_id (comm_id v) (frames_of st)) /\ f_body f = b) /\
  (exists l, get_counts st = Ok l /\ forall b, In b l -> exists f, In f (with_id (count_id v) (frames_of st)) /\ f_body f = b) /\
  (exists l, get_popms st = Ok l /\ forall b, In b l -> exists f, In f (with_id (popm_id v) (frames_of st)) /\ f_body f = b).
Definition lists_complete (v : version) (st : ltag) : Prop :=
  (exists l, get_comments st = Ok l /\ Permutation l (map f_body (with_id (comm_id v) (frames_of st)))) /\
  (exists l, get_counts st = Ok l /\ Permutation l (map f_body (with_id (count_id v) (frames_of st)))) /\
  (exists l, get_popms st = Ok l /\ Permutation l (map f_body (with_id (popm_id v) (frames_of st)))).

(** ** Histories *)
Inductive edit :=
| EPush (a : arg)
| EInsert (i : N) (a : arg)
| EErase (i : N)
| EEraseRange (i : N) (n : nat)
| EDelete (c : N) (k : tframe)
| EAssign (i : N) (a : arg)
| EComment (fl : fflags) (c : comm)
| ETxxx (fl : fflags) (t : txxx)
| ESetText (c : N) (id s : bytes) (src : enc) (bom : bool) (rsp : noenc).

Definition apply_edit (v : version) (ic : iconv_t) (e : edit) (st : ltag) : outcome ltag :=
  match e with
  | EPush a => Ok (push_back v a st)
  | EInsert i a => insert v i a st
  | EErase i => erase v i st
  | EEraseRange i n => erase_range v i n st
  | EDelete c k => delete_frame v c k st
  | EAssign i a => assign v i a st
  | EComment fl c => add_comment v fl c st
  | ETxxx fl t => add_txxx v fl t st
  | ESetText c id s src bom rsp => set_text_frame v ic c id s src bom rsp st
  end.

(** Text frames are given identifiers that start with a T, as their constructors
    demand (framesv23.hh:715). *)
Definition wf_arg (a : arg) : Prop :=
  match a with AText id _ _ => text_id id = true | _ => True end.
Definition wf_edit (e : edit) : Prop :=
  match e with
  | EPush a | EInsert _ a | EAssign _ a => wf_arg a
  | ESetText _ id _ _ _ _ => text_id id = true
  | _ => True
  end.

(** An edit keeps frames in place when no frame that stays changes its position;
    frames are recognised by their address. *)
Definition keeps_places (st st' : ltag) : Prop := forall a i j c c',
  nthN (l_frames st) i = Some (a, c) -> nthN (l_frames st') j = Some (a, c') -> i = j.

(** What parsing makes: each frame is of the kind its identifier calls for. *)
Definition parsed_frame (v : version) (f : frame) : Prop := kind_of v (f_id f) = kind_of_body (f_body f).

(** Everything that can become of a parsed tag through edits that keep frames in
    place. *)
Inductive history (v : version) (ic : iconv_t) : ltag -> Prop :=
| H_parsed fs : Forall (parsed_frame v) fs -> history v ic (of_frames fs)
| H_edit st e st' : history v ic st -> wf_edit e -> apply_edit v ic e st = Ok st' -> keeps_places st st' ->
    history v ic st'.

(** The same where moreover text frames, comments, counters and popularimeters are
    handed over as what they are. *)
Definition typed_arg (v : version) (a : arg) : Prop :=
  match a with
  | ABase c => id_of c <> comm_id v /\ id_of c <> count_id v /\ id_of c <> popm_id v /\
               forall t, f_body (c_frame c) <> BText t
  | _ => True
  end.
Definition typed_edit (v : version) (e : edit) : Prop :=
  match e with
  | EPush a | EInsert _ a | EAssign _ a => typed_arg v a
  | EComment _ _ => False
  | _ => True
  end.
Inductive typed_history (v : version) (ic : iconv_t) : ltag -> Prop :=
| T_parsed fs : Forall (parsed_frame v) fs -> typed_history v ic (of_frames fs)
| T_edit st e st' : typed_history v ic st -> wf_edit e -> typed_edit v e ->
    apply_edit v ic e st = Ok st' -> keeps_places st st' -> typed_history v ic st'.

(** ** Setting a text *)

(** The encoding in which a tag stores text when it can. *)
Definition stored (v : version) : enc := match v with V24 => E_UTF_8 | _ => E_ISO_8859_1 end.

(** One frame named [id] has new contents, or one has been added; all else is as
    it was. *)
Definition one_frame_changed (id : bytes) (st st' : ltag) : Prop :=
  (exists l1 f f' l2, frames_of st = l1 ++ f :: l2 /\ frames_of st' = l1 ++ f' :: l2 /\
     f_id f = id /\ f_id f' = id /\ f_flags f' = f_flags f) \/
  (exists f', frames_of st' = frames_of st ++ [f'] /\ f_id f' = id).
