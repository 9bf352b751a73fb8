(** * Model: processing tagsets (src/command-utilities.cc, .hh). *)
From Verif Require Import Base M_Ints M_Stream M_Id3v1 M_Payload M_Frame M_Tag22 M_Tag23 M_Tag24 M_Read M_Fs M_Tagset.

(** command-utilities.hh:217-224: the policies; [TagsSome] carries the index list
    [v2_tags_]. *)
Inductive v2_creation := V2Never | V2WhenV1Present | V2Always.
Inductive v1_creation := V1Never | V1WhenV2Present | V1Always.
Inductive v2_scope := TagsAll | TagsNone | TagsSome (idx : list N).

(** command-utilities.hh:264-291 and the members at 419-428; [p_v1_scope] is
    [v1_tag_scope_policy::yes]. *)
Record policies := mkPol { p_v2_scope : v2_scope; p_v1_scope : bool; p_v2_creation : v2_creation; p_v1_creation : v1_creation;
                           p_dry : bool; p_adjust : bool; p_backups : bool }.

(** command-utilities.hh:398-417: the virtual functions of a subclass; [S] is its
    state, a null pointer is [None], [process_v2] covers the three versions. *)
Record processor (S : Type) := mkProc {
  create_v1_from : S -> list anytag -> outcome (option id3v1_tag * S);
  create_v1 : S -> outcome (option id3v1_tag * S);
  create_v2_from : S -> id3v1_tag -> outcome (option anytag * S);
  create_v2 : S -> outcome (option anytag * S);
  process_v1 : S -> id3v1_tag -> outcome (bool * id3v1_tag * S);
  process_v2 : S -> anytag -> outcome (bool * anytag * S) }.
Arguments create_v1_from {S}.
Arguments create_v1 {S}.
Arguments create_v2_from {S}.
Arguments create_v2 {S}.
Arguments process_v1 {S}.
Arguments process_v2 {S}.

(** [iota]. *)
Fixpoint iota (n : nat) (i : N) : list N := match n with O => [] | Datatypes.S n => i :: iota n (i + 1) end.

(** command-utilities.cc:338-361: the loop; [deque::front] must not be called on
    an empty deque. *)
Fixpoint process_tags {S} (P : processor S) (i : N) (tags : list N) (v2 : list anytag) (s : S)
  : outcome (list anytag * bool * S) :=
  match v2 with
  | [] => Ok ([], false, s)
  | t :: r =>
      match tags with
      | [] => UB OutOfBounds
      | x :: rest =>
          if x =? i then
            let* (upd, t', s1) := process_v2 P s t in
            let* (r', d, s2) := process_tags P (i + 1) rest r s1 in
            Ok (t' :: r', upd || d, s2)
          else
            let* (r', d, s1) := process_tags P (i + 1) tags r s in
            Ok (t :: r', d, s1)
      end
  end.

(** command-utilities.cc:309-393: from the tagset read to whether it is to be
    written, and what. *)
Definition process_tagset {S} (P : processor S) (p : policies) (v2 : list anytag) (v1 : option id3v1_tag) (s : S)
  : outcome (bool * list anytag * option id3v1_tag * S) :=
  let* (v2', pnv2, d1, s1) :=
    match v2 with
    | [] =>
        match v1, p_v2_creation p with
        | Some t, V2WhenV1Present | Some t, V2Always => let* (q, s1) := create_v2_from P s t in Ok ([], q, true, s1)
        | None, V2Always => let* (q, s1) := create_v2 P s in Ok ([], q, true, s1)
        | _, _ => Ok ([], None, false, s)
        end
    | _ =>
        match p_v2_scope p with
        | TagsNone => Ok (v2, None, false, s)
        | TagsAll => let* (v2', d, s1) := process_tags P 0 (iota (List.length v2) 0) v2 s in Ok (v2', None, d, s1)
        | TagsSome idx => let* (v2', d, s1) := process_tags P 0 idx v2 s in Ok (v2', None, d, s1)
        end
    end in
  let* (v1', d2, s2) :=
    match v1 with
    | None =>
        match v2', p_v1_creation p with
        | _ :: _, V1WhenV2Present | _ :: _, V1Always => let* (q, s2) := create_v1_from P s1 v2' in Ok (q, true, s2)
        | [], V1Always => let* (q, s2) := create_v1 P s1 in Ok (q, true, s2)
        | _, _ => Ok (None, false, s1)
        end
    | Some t =>
        if p_v1_scope p then let* (d, t', s2) := process_v1 P s1 t in Ok (Some t', d, s2)
        else Ok (Some t, false, s1)
    end in
  Ok (d1 || d2, v2' ++ match pnv2 with Some t => [t] | None => [] end, v1', s2).

(** scribbu/id3v1.cc:534-572 [replace_id3v1] on a file: cut, then append. *)
Definition replace_v1_file (k : key) (t : id3v1_tag) : FS unit := fun fs =>
  match find_node k fs with
  | Some (File data) =>
      (run f <- flift (maybe_remove_id3v1 data);;
       run _ <- (if len f =? len data then fret tt else change (set_node k (File f)));;
       run b <- flift (v1_write t);;
       append k b) fs
  | Some Dir => fthrow IosFailure fs
  | None => (run _ <- change (set_node k (File []));; run b <- flift (v1_write t);; append k b) fs
  end.

(** command-utilities.hh:360-396 [write_tagset]. *)
Definition write_tagset (z : zlib) (e : env) (p : policies) (dirty : bool) (v2 : list anytag) (v1 : option id3v1_tag)
  (path : bytes) : FS unit :=
  if dirty && negb (p_dry p) then
    let m := if p_adjust p then AsNeeded else Never in
    run _ <- (if p_backups p then replace_tagset_copy z e path v2 m true
              else maybe_emplace_tagset z e path v2 m ReducePaddingEvenly false);;
    match v1 with
    | Some t => replace_v1_file (resolve (e_cwd e) path) t
    | None => fret tt
    end
  else fret tt.

(** command-utilities.cc:173-189 [read_tagset]. *)
Definition read_tagset (z : zlib) (passes : nat) (data : bytes) : outcome (list anytag * option id3v1_tag) :=
  fst ((do v2 <- read_all_id3v2 z passes;; do v1 <- process_id3v1;; sret (v2, v1)) (open_file data all_bits)).

(** command-utilities.cc:300-395 [tagset_processor::process_file]. *)
Definition process_file {S} (z : zlib) (passes : nat) (e : env) (P : processor S) (p : policies) (path : bytes) (s : S)
  : FS S := fun fs =>
  match find_node (resolve (e_cwd e) path) fs with
  | Some (File data) =>
      (run (v2, v1) <- flift (read_tagset z passes data);;
       run (dirty, v2', v1', s') <- flift (process_tagset P p v2 v1 s);;
       run _ <- write_tagset z e p dirty v2' v1' path;;
       fret s') fs
  | _ => fthrow IosFailure fs
  end.
