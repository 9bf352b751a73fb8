(** * Model: parsers that an application registers for frames
      (scribbu/id3v22.hh, id3v22.cc, id3v23.cc, id3v24.cc). *)
From Verif Require Import Base M_Ints M_Unsync M_Stream M_Payload M_Cloud M_Frame M_Tag23 M_Tag22.
#[local] Open Scope N_scope.

Section Apps.
(** What frames of the application's own classes hold. *)
Context {A : Type}.

(** A frame in a tag: of one of the library's classes, or of the application's. *)
Inductive made := Own (b : body) | Theirs (a : A).

(** id3v22.hh:546-562: a parser takes the identifier, where the payload is, and its
    size.  (Simplified: it gives a frame, not a null pointer, and keeps nothing
    between calls; that a text parser gives some kind of text frame is not
    required.) *)
Definition parser := bytes -> bytes -> N -> outcome made.

(** The library's own: [create] of each class, or its constructor. *)
Definition built_in (v : version) (k : kind) : parser :=
  fun _ mem cb => let* b := parse_payload v k mem cb in Ok (Own b).

(** [std::unordered_map] of parsers: [find], and [insert], with the [bool] it gives. *)
Definition table := list (bytes * parser).
Fixpoint lookup (t : table) (id : bytes) : option parser :=
  match t with
  | [] => None
  | (k, f) :: r => if bytes_eqb k id then Some f else lookup r id
  end.
Definition insert (t : table) (id : bytes) (f : parser) : table * bool :=
  match lookup t id with
  | Some _ => (t, false)
  | None => (t ++ [(id, f)], true)
  end.

(** id3v22.cc:93-152, id3v23.cc:99-161, id3v24.cc:97-161 [static_initializer]: the
    parsers there at the start. *)
Definition generic_defaults (v : version) : table :=
  match v with
  | V22 => [(B "UFI", built_in v KUfid); (B "TXX", built_in v KTxxx); (B "CNT", built_in v KCount);
            (B "POP", built_in v KPopm); (B "XTG", built_in v KCloud)]
  | _ => [(B "UFID", built_in v KUfid); (B "ENCR", built_in v KEncr); (B "TXXX", built_in v KTxxx);
          (B "PCNT", built_in v KCount); (B "POPM", built_in v KPopm); (B "XTAG", built_in v KCloud)]
  end.
Definition text_defaults (v : version) : table :=
  map (fun id => (id, built_in v KText)) (match v with V22 => text_ids22 | _ => text_ids4 end).

(** id3v22.cc:794-802, id3v23.cc:1570-1578, id3v24.cc:1617-1625 [parsing_is_reserved]. *)
Definition reserved (v : version) (id : bytes) : bool :=
  match v with
  | V22 => mem_id id [B "COM"; B "PCT"; B "POP"]
  | _ => mem_id id [B "COMM"; B "PCNT"; B "POPM"]
  end.

(** id3v22.cc:951-1012, id3v23.cc:1480-1568, id3v24.cc:1518-1615 [parse_frame]: which
    parser is run. *)
Definition registered (v : version) (generic text : table) (id : bytes) : parser :=
  match lookup text id with
  | Some f => f
  | None => match lookup generic id with
            | Some f => f
            | None => built_in v KUnknown
            end
  end.
Definition dispatch (v : version) (generic text : table) (id : bytes) : parser :=
  match v with
  | V22 =>
      if bytes_eqb id (B "COM") then built_in v KComm
      else if bytes_eqb id (B "CNT") then built_in v KCount
      else if bytes_eqb id (B "POP") then built_in v KPopm
      else registered v generic text id
  | _ =>
      if bytes_eqb id (B "COMM") then built_in v KComm
      else if bytes_eqb id (B "PCNT") then built_in v KCount
      else if bytes_eqb id (B "POPM") then built_in v KPopm
      else if bytes_eqb id (B "PRIV") then built_in v KPriv
      else registered v generic text id
  end.

(** id3v22.cc:869-934, the loop over the frames: M_Tag22's [frames22], with the
    tag's tables. *)
Fixpoint frames_with (generic text : table) (fuel : nat) (cb_tag : N) (l after : bytes)
  : outcome (list (bytes * made) * N) :=
  match fuel with
  | O => NonTerm
  | S fuel =>
      match l with
      | [] => Ok ([], 0)
      | _ =>
          let* h := frame_head22 l after in
          match h with
          | None => Ok ([], len l)
          | Some (id, cb) =>
              if cb_tag <=? cb then Throw InvalidTag
              else
                let* m := dispatch V22 generic text id id (dropN 6 l ++ after) cb in
                let* (fs, pad) := frames_with generic text fuel cb_tag (dropN (cb + 6) l) after in
                Ok ((id, m) :: fs, pad)
          end
      end
  end.
(** id3v22.cc:836-949 [parse], on the bytes read. *)
Definition parse_with (generic text : table) (flags : N) (buf : bytes) : outcome (list (bytes * made) * N) :=
  let unsync := negb (N.land flags 128 =? 0) in
  let l0 := if unsync then resynchronise buf else buf in
  let after := if unsync then resync_rest buf else [] in
  frames_with generic text (S (length l0)) (len l0) l0 after.

(** ** ID3v2.2 tags in a program of several threads *)

(** A tag: its tables, its frames and its padding. *)
Record tag_obj := mkObj { o_generic : table; o_text : table;
                          o_frames : list (bytes * made); o_pad : N }.
(** The default tables, which the mutex protects; for each tag being constructed, the
    table it has copied already; the tags there are. *)
Record world := mkWorld { w_generic : table; w_text : table;
                          w_begun : nat -> option table; w_tags : nat -> option tag_obj }.
Definition put {X} (g : nat -> option X) (t : nat) (x : option X) : nat -> option X :=
  fun u => if Nat.eqb u t then x else g u.
Definition start : world := mkWorld (generic_defaults V22) (text_defaults V22) (fun _ => None) (fun _ => None).

(** What threads do, each in one go: the calls that take the mutex, and those on a
    tag, which is one thread's. *)
Inductive act :=
| RegGeneric (id : bytes) (f : parser)
| RegText (id : bytes) (f : parser)
| Begin (t : nat)
| Finish (t : nat) (flags : N) (buf : bytes)
| TagGeneric (t : nat) (id : bytes) (f : parser)
| TagText (t : nat) (id : bytes) (f : parser)
| CopyTag (t u : nat).
(** [true], [false], [reserved_frame_error]; nothing. *)
Inductive answer := Added | Present | Refused | Silent.
Definition said (b : bool) : answer := if b then Added else Present.

Definition step (w : world) (a : act) : answer * world :=
  match a with
  (* id3v22.cc:773-783 *)
  | RegGeneric id f =>
      if reserved V22 id then (Refused, w)
      else let (g, b) := insert (w_generic w) id f in
           (said b, mkWorld g (w_text w) (w_begun w) (w_tags w))
  (* id3v22.cc:785-792 *)
  | RegText id f =>
      let (x, b) := insert (w_text w) id f in
      (said b, mkWorld (w_generic w) x (w_begun w) (w_tags w))
  (* id3v22.cc:188-194, id3v22.hh:566-574: the first of the two copies *)
  | Begin t => (Silent, mkWorld (w_generic w) (w_text w) (put (w_begun w) t (Some (w_generic w))) (w_tags w))
  (* id3v22.cc:195-199, id3v22.hh:578-586: the second, and the frames *)
  | Finish t flags buf =>
      match w_begun w t with
      | None => (Silent, w)
      | Some g =>
          (Silent, mkWorld (w_generic w) (w_text w) (put (w_begun w) t None)
             match parse_with g (w_text w) flags buf with
             | Ok (fs, pad) => put (w_tags w) t (Some (mkObj g (w_text w) fs pad))
             | _ => w_tags w
             end)
      end
  (* id3v22.hh:605-612 *)
  | TagGeneric t id f =>
      match w_tags w t with
      | None => (Silent, w)
      | Some o =>
          if reserved V22 id then (Refused, w)
          else let (g, b) := insert (o_generic o) id f in
               (said b, mkWorld (w_generic w) (w_text w) (w_begun w)
                          (put (w_tags w) t (Some (mkObj g (o_text o) (o_frames o) (o_pad o)))))
      end
  (* id3v22.hh:621-628 *)
  | TagText t id f =>
      match w_tags w t with
      | None => (Silent, w)
      | Some o =>
          if reserved V22 id then (Refused, w)
          else let (x, b) := insert (o_text o) id f in
               (said b, mkWorld (w_generic w) (w_text w) (w_begun w)
                          (put (w_tags w) t (Some (mkObj (o_generic o) x (o_frames o) (o_pad o)))))
      end
  (* id3v22.cc:201-212, the copy constructor *)
  | CopyTag t u => (Silent, mkWorld (w_generic w) (w_text w) (w_begun w) (put (w_tags w) u (w_tags w t)))
  end.

Fixpoint after (w : world) (h : list act) : world :=
  match h with
  | [] => w
  | a :: r => after (snd (step w a)) r
  end.
End Apps.
Arguments made A : clear implicits.
Arguments parser A : clear implicits.
Arguments table A : clear implicits.
Arguments act A : clear implicits.
Arguments world A : clear implicits.
Arguments tag_obj A : clear implicits.
