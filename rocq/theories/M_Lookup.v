(** * Model: a tag's frames and its lookup tables, and the edits an application
      can make (scribbu/id3v22.cc, id3v23.cc, id3v24.cc). *)
From Verif Require Import Base M_Charset M_Payload M_Frame M_TextId.

(** ** Reading and setting the text of a text frame *)

(** scribbu/framesv22.cc:37-70 and framesv23.cc:310-344 [as_str]; framesv24.cc:38-80
    [as_str]; an empty text is not converted (framesv22.hh:437-444,
    framesv23.hh:814-821, framesv24.hh:577-584). *)
Definition text_source (v : version) (t : text) : outcome enc :=
  let bom := fun be le none =>
    match tx_text t with
    | 254 :: 255 :: _ => be
    | 255 :: 254 :: _ => le
    | _ => none
    end in
  match v with
  | V24 =>
      if tx_unicode t =? 0 then Ok E_ISO_8859_1
      else if (tx_unicode t =? 1) || (tx_unicode t =? 2) then Ok (bom E_UTF_16BE E_UTF_16LE E_UTF_16)
      else if tx_unicode t =? 3 then Ok E_UTF_8
      else Throw RangeError
  | _ =>
      if tx_unicode t =? 0 then Ok E_ISO_8859_1
      else if tx_unicode t =? 1 then Ok (bom E_UCS_2BE E_UCS_2LE E_UCS_2)
      else Throw RangeError
  end.
Definition text_as_str (v : version) (ic : iconv_t) (t : text) (dst : enc) (rsp : noenc) (force : option enc) : outcome bytes :=
  match tx_text t with
  | [] => Ok []
  | _ => let* src := match force with Some e => Ok e | None => text_source v t end in
         to_string ic (tx_text t) src dst rsp
  end.

(** scribbu/framesv24.hh:419-423 and framesv24.cc:287-321 [frame_encoding],
    [encshim] (the encoding converted to), [encshim2] (the byte stored). *)
Inductive fenc24 := FE_Latin1 | FE_Utf16Bom | FE_Utf16BE | FE_Utf8.
Definition encshim (x : fenc24) : enc :=
  match x with
  | FE_Latin1 => E_ISO_8859_8 | FE_Utf16Bom => E_UTF_16 | FE_Utf16BE => E_UTF_16BE | FE_Utf8 => E_UTF_8
  end.
Definition encshim2 (x : fenc24) : N :=
  match x with FE_Latin1 => 0 | FE_Utf16Bom => 1 | FE_Utf16BE => 2 | FE_Utf8 => 3 end.

(** scribbu/framesv24.cc:323-335 [id3v2_4_text_frame::set] and the constructor of
    framesv24.hh:475-493. *)
Definition text_set24 (ic : iconv_t) (s : bytes) (src : enc) (dst : fenc24) (bom : bool) (rsp : noenc) : outcome text :=
  let* b := to_bytes ic s src (encshim dst) bom rsp in Ok (mkText (encshim2 dst) b).

(** [set]: scribbu/framesv22.cc:324-350, framesv23.cc:543-569, and framesv24.cc:323-335
    with the tag's constant [DST] (id3v24.hh:346). *)
Definition text_set (v : version) (ic : iconv_t) (s : bytes) (src : enc) (bom : bool) (rsp : noenc) : outcome text :=
  match v with
  | V24 => text_set24 ic s src FE_Utf8 bom rsp
  | _ => match to_bytes ic s src E_ISO_8859_1 bom rsp with
         | Ok b => Ok (mkText 0 b)
         | Throw _ => let* b := to_bytes ic s src E_UCS_2 bom rsp in Ok (mkText 1 b)
         | UB u => UB u
         | NonTerm => NonTerm
         end
  end.

(** The constructors that [set_text_frame] calls, with [ucs2 = false]:
    scribbu/framesv22.hh:376-384, framesv23.hh:728-747, framesv24.hh:475-493. *)
Definition text_new (v : version) (ic : iconv_t) (s : bytes) (src : enc) (bom : bool) (rsp : noenc) : outcome text :=
  match v with
  | V24 => text_set24 ic s src FE_Utf8 bom rsp
  | _ => let* b := to_bytes ic s src E_ISO_8859_1 bom rsp in Ok (mkText 0 b)
  end.

(** ** The tables *)

(** scribbu/id3v22.hh:686-728, id3v23.hh:773-815, id3v24.hh:829-862.  Frames are on
    the heap: [l_frames] holds their addresses too, and [l_next] is an address
    never used so far.  [l_ids] is [frame_map_], [l_texts] [text_map_] (both
    unordered multimaps, here the list of their entries), the others [comms_],
    [pcnts_] and [popms_] (address, index). *)
Record ltag := mkL {
  l_frames : list (N * cframe);
  l_next : N;
  l_ids : list (bytes * N);
  l_texts : list (bytes * N);
  l_comms : list (N * N);
  l_counts : list (N * N);
  l_popms : list (N * N)
}.
Definition empty_ltag : ltag := mkL [] 0 [] [] [] [] [].

Definition size_l (st : ltag) : N := N.of_nat (length (l_frames st)).
Definition nthN {A} (l : list A) (i : N) : option A := nth_error l (N.to_nat i).

(** Of the entries with a given key, [find] may return any: [c] says which. *)
Definition pick {A} (c : N) (l : list A) : option A := nthN l (c mod N.of_nat (length l)).
Definition values {A} (m : list (bytes * A)) (id : bytes) : list A :=
  map snd (filter (fun x => bytes_eqb (fst x) id) m).

Definition comm_id (v : version) : bytes := match v with V22 => B "COM" | _ => B "COMM" end.
Definition count_id (v : version) : bytes := match v with V22 => B "CNT" | _ => B "PCNT" end.
Definition popm_id (v : version) : bytes := match v with V22 => B "POP" | _ => B "POPM" end.
Definition txxx_id (v : version) : bytes := match v with V22 => B "TXX" | _ => B "TXXX" end.

(** scribbu/framesv2.hh:287-289 and 334-336 [text_frame()]. *)
Definition text_id (id : bytes) : bool := hd 0 id =? 84.

(** A frame as an argument of [push_back] and [insert], by its static type: the
    overloads of scribbu/id3v23.cc:904-1030 take a text frame, a counter, a
    comment, a popularimeter, or any frame. *)
Inductive arg :=
| ABase (c : cframe)
| AText (id : bytes) (fl : fflags) (t : text)
| ACount (fl : fflags) (b : bytes)
| AComm (fl : fflags) (c : comm)
| APopm (fl : fflags) (p : popm).

(** The deep copy the callee makes; its caches are dropped in ID3v2.3 and 2.4
    (framesv23.hh:219-228) and come along in 2.2.  A frame of known type is taken
    to be newly made. *)
Definition clone (v : version) (c : cframe) : cframe :=
  match v with V22 => c | _ => new_frame (c_frame c) end.
Definition frame_of (v : version) (a : arg) : cframe :=
  match a with
  | ABase c => clone v c
  | AText id fl t => new_frame (mkFrame id fl (BText t))
  | ACount fl b => new_frame (mkFrame (count_id v) fl (BCount b))
  | AComm fl c => new_frame (mkFrame (comm_id v) fl (BComm c))
  | APopm fl p => new_frame (mkFrame (popm_id v) fl (BPopm p))
  end.
Definition id_of (c : cframe) : bytes := f_id (c_frame c).

(** The overloads of [add_frame_to_lookups]: scribbu/id3v22.cc:731-776,
    id3v23.cc:1106-1143, id3v24.cc:1194-1230. *)
Inductive over := OvBase | OvText | OvCount | OvComm | OvPopm.
Definition over_of (a : arg) : over :=
  match a with
  | ABase _ => OvBase | AText _ _ _ => OvText | ACount _ _ => OvCount
  | AComm _ _ => OvComm | APopm _ _ => OvPopm
  end.
Definition add_lookups (o : over) (addr : N) (id : bytes) (idx : N) (st : ltag) : ltag :=
  mkL (l_frames st) (l_next st) (l_ids st ++ [(id, idx)])
      (match o with OvText => l_texts st ++ [(id, addr)] | _ => l_texts st end)
      (match o with OvComm => l_comms st ++ [(addr, idx)] | _ => l_comms st end)
      (match o with OvCount => l_counts st ++ [(addr, idx)] | _ => l_counts st end)
      (match o with OvPopm => l_popms st ++ [(addr, idx)] | _ => l_popms st end).

(** [find_if] then [erase]; [None] when there is no such element. *)
Fixpoint remove_first {A} (p : A -> bool) (l : list A) : option (list A) :=
  match l with
  | [] => None
  | x :: r => if p x then Some r
              else match remove_first p r with Some r' => Some (x :: r') | None => None end
  end.

Definition has_idx (idx : N) (x : N * N) : bool := snd x =? idx.
Definition is_entry (id : bytes) (n : N) (x : bytes * N) : bool := bytes_eqb (fst x) id && (snd x =? n).

(** scribbu/id3v22.cc:686-729, id3v23.cc:1064-1104, id3v24.cc:1150-1192
    [remove_frame_from_lookups].  [erase(end())] is undefined; ID3v2.2 checks for
    it in the text table only. *)
Definition remove_lookups (v : version) (id : bytes) (idx : N) (st : ltag) : outcome ltag :=
  let* st1 :=
    if bytes_eqb id (comm_id v) then
      match remove_first (has_idx idx) (l_comms st) with
      | Some l => Ok (mkL (l_frames st) (l_next st) (l_ids st) (l_texts st) l (l_counts st) (l_popms st))
      | None => UB BadIterator
      end
    else if bytes_eqb id (count_id v) then
      match remove_first (has_idx idx) (l_counts st) with
      | Some l => Ok (mkL (l_frames st) (l_next st) (l_ids st) (l_texts st) (l_comms st) l (l_popms st))
      | None => UB BadIterator
      end
    else if bytes_eqb id (popm_id v) then
      match remove_first (has_idx idx) (l_popms st) with
      | Some l => Ok (mkL (l_frames st) (l_next st) (l_ids st) (l_texts st) (l_comms st) (l_counts st) l)
      | None => UB BadIterator
      end
    else if text_id id then
      match nthN (l_frames st) idx with
      | None => UB OutOfBounds
      | Some (a, _) =>
          match remove_first (is_entry id a) (l_texts st) with
          | Some l => Ok (mkL (l_frames st) (l_next st) (l_ids st) l (l_comms st) (l_counts st) (l_popms st))
          | None => match v with V22 => Throw LogicError | _ => UB BadIterator end
          end
      end
    else Ok st in
  match remove_first (is_entry id idx) (l_ids st1) with
  | Some l => Ok (mkL (l_frames st1) (l_next st1) l (l_texts st1) (l_comms st1) (l_counts st1) (l_popms st1))
  | None => UB BadIterator
  end.

Definition set_frames (fs : list (N * cframe)) (st : ltag) : ltag :=
  mkL fs (l_next st) (l_ids st) (l_texts st) (l_comms st) (l_counts st) (l_popms st).
Definition bump (st : ltag) : ltag :=
  mkL (l_frames st) (l_next st + 1) (l_ids st) (l_texts st) (l_comms st) (l_counts st) (l_popms st).

Definition insert_at {A} (i : N) (x : A) (l : list A) : list A :=
  firstn (N.to_nat i) l ++ x :: skipn (N.to_nat i) l.
Definition remove_at {A} (i : N) (l : list A) : list A :=
  firstn (N.to_nat i) l ++ skipn (S (N.to_nat i)) l.
Definition replace_at {A} (i : N) (x : A) (l : list A) : list A :=
  firstn (N.to_nat i) l ++ x :: skipn (S (N.to_nat i)) l.

(** ** Edits *)

(** A frame put at index [i] and registered there through overload [o]. *)
Definition put_at (o : over) (i : N) (c : cframe) (st : ltag) : ltag :=
  add_lookups o (l_next st) (id_of c) i
    (bump (set_frames (insert_at i (l_next st, c) (l_frames st)) st)).

(** [push_back]: scribbu/id3v22.cc:602-650, id3v23.cc:982-1030, id3v24.cc. *)
Definition push_back (v : version) (a : arg) (st : ltag) : ltag :=
  put_at (over_of a) (size_l st) (frame_of v a) st.

(** [insert]: scribbu/id3v22.cc:525-600, id3v23.cc:904-980, id3v24.cc. *)
Definition insert (v : version) (i : N) (a : arg) (st : ltag) : outcome ltag :=
  if i <=? size_l st then Ok (put_at (over_of a) i (frame_of v a) st) else UB BadIterator.

(** [erase] of one frame: scribbu/id3v22.cc:652-658, id3v23.cc:1032-1038, id3v24.cc. *)
Definition erase (v : version) (i : N) (st : ltag) : outcome ltag :=
  match nthN (l_frames st) i with
  | None => UB BadIterator
  | Some (_, c) =>
      let* st1 := remove_lookups v (id_of c) i st in
      Ok (set_frames (remove_at i (l_frames st1)) st1)
  end.

(** [erase] of the [n] frames from index [i] on: scribbu/id3v22.cc:660-670,
    id3v23.cc:1040-1050, id3v24.cc.  Entries first, then the frames. *)
Fixpoint erase_lookups (v : version) (n : nat) (i : N) (st : ltag) : outcome ltag :=
  match n with
  | O => Ok st
  | S m => match nthN (l_frames st) i with
           | None => UB BadIterator
           | Some (_, c) => let* st1 := remove_lookups v (id_of c) i st in erase_lookups v m (i + 1) st1
           end
  end.
Definition erase_range (v : version) (i : N) (n : nat) (st : ltag) : outcome ltag :=
  let* st1 := erase_lookups v n i st in
  Ok (set_frames (firstn (N.to_nat i) (l_frames st1) ++ skipn (N.to_nat i + n) (l_frames st1)) st1).

(** [delete_frame]: scribbu/id3v22.cc:373-385, id3v23.cc:752-764, id3v24.cc:827-839. *)
Definition delete_frame (v : version) (c : N) (k : tframe) (st : ltag) : outcome ltag :=
  let* id := frame_id_of v k in
  match pick c (values (l_ids st) id) with
  | None => Ok st
  | Some idx =>
      let* st1 := remove_lookups v id idx st in
      if idx <? size_l st1 then Ok (set_frames (remove_at idx (l_frames st1)) st1) else UB BadIterator
  end.

(** Assignment of a frame through the iterator's proxy: scribbu/id3v22.cc:429-523,
    id3v23.cc:802-902, id3v24.cc. *)
Definition assign (v : version) (i : N) (a : arg) (st : ltag) : outcome ltag :=
  match nthN (l_frames st) i with
  | None => UB OutOfBounds
  | Some (_, c) =>
      let* st1 := remove_lookups v (id_of c) i st in
      let f := frame_of v a in
      Ok (add_lookups (over_of a) (l_next st1) (id_of f) i
            (bump (set_frames (replace_at i (l_next st1, f) (l_frames st1)) st1)))
  end.

(** [add_comment] and [add_user_defined_text]: scribbu/id3v23.cc:685-725 register
    the frame through a reference to const, that is as any frame;
    id3v22.cc:314-347 and id3v24.cc:758-800 dereference a pointer that has been
    moved from. *)
Definition add_made (v : version) (f : frame) (st : ltag) : outcome ltag :=
  match v with
  | V23 => Ok (put_at OvBase (size_l st) (new_frame f) st)
  | _ => UB NullDeref
  end.
Definition add_comment (v : version) (fl : fflags) (c : comm) (st : ltag) : outcome ltag :=
  add_made v (mkFrame (comm_id v) fl (BComm c)) st.
Definition add_txxx (v : version) (fl : fflags) (t : txxx) (st : ltag) : outcome ltag :=
  add_made v (mkFrame (txxx_id v) fl (BTxxx t)) st.

(** The frame at an address. *)
Definition at_addr (a : N) (st : ltag) : option cframe :=
  match find (fun x => fst x =? a) (l_frames st) with Some x => Some (snd x) | None => None end.

(** A change to the contents of the frame at an address.  None of the setters of
    framesv22.cc, framesv23.cc or framesv24.cc marks the frame dirty. *)
Definition edit_body (b : body) (c : cframe) : cframe :=
  mkC (mkFrame (f_id (c_frame c)) (f_flags (c_frame c)) b) (c_dirty c) (c_plain c) (c_unsync c) (c_syncs c).
Definition edit_at (a : N) (b : body) (st : ltag) : ltag :=
  set_frames (map (fun x => if fst x =? a then (fst x, edit_body b (snd x)) else x) (l_frames st)) st.

(** [set_text_frame]: scribbu/id3v22.cc:1030-1048, id3v23.cc:1607-1624,
    id3v24.cc:1653-1675. *)
Definition set_text_frame (v : version) (ic : iconv_t) (c : N) (id s : bytes) (src : enc) (bom : bool) (rsp : noenc)
    (st : ltag) : outcome ltag :=
  match pick c (values (l_texts st) id) with
  | Some a =>
      match at_addr a st with
      | None => UB Dangling
      | Some _ => let* t := text_set v ic s src bom rsp in Ok (edit_at a (BText t) st)
      end
  | None =>
      let* t := text_new v ic s src bom rsp in
      Ok (put_at OvText (size_l st) (new_frame (mkFrame id no_flags (BText t))) st)
  end.

(** The frame [parse_frame] appends: scribbu/id3v22.cc:951-1012, id3v23.cc:1480-1568,
    id3v24.cc:1518-1615; the kind of the frame decides the table. *)
Definition over_of_kind (k : kind) : over :=
  match k with KText => OvText | KCount => OvCount | KComm => OvComm | KPopm => OvPopm | _ => OvBase end.
Definition parsed (f : frame) (st : ltag) : ltag :=
  put_at (over_of_kind (kind_of_body (f_body f))) (size_l st) (new_frame f) st.
Definition of_frames (fs : list frame) : ltag := fold_left (fun st f => parsed f st) fs empty_ltag.

(** ** Queries *)

(** [has_frame]: scribbu/id3v22.hh:303-304, id3v23.hh:407-408, id3v24.hh:444-445. *)
Definition has_frame (st : ltag) (id : bytes) : N := N.of_nat (length (values (l_ids st) id)).

(** [get_frame]: scribbu/id3v22.hh:305-309, id3v23.hh:410-415, id3v24.hh:447-451. *)
Definition get_frame (c : N) (st : ltag) (id : bytes) : outcome frame :=
  match pick c (values (l_ids st) id) with
  | None => UB BadIterator
  | Some i => match nthN (l_frames st) i with
              | None => Throw OutOfRange
              | Some (_, f) => Ok (c_frame f)
              end
  end.

(** [text_frame_as_str]: scribbu/id3v22.cc:1014-1028, id3v23.cc:1592-1604,
    id3v24.cc:1639-1651: the text frame that is read. *)
Definition find_text (c : N) (st : ltag) (id : bytes) : outcome text :=
  match pick c (values (l_texts st) id) with
  | None => Throw UnknownFrame
  | Some a => match at_addr a st with
              | None => UB Dangling
              | Some f => match f_body (c_frame f) with BText t => Ok t | _ => UB Dangling end
              end
  end.
Definition get_text (v : version) (ic : iconv_t) (c : N) (st : ltag) (id : bytes) (dst : enc) (rsp : noenc) : outcome bytes :=
  let* t := find_text c st id in text_as_str v ic t dst rsp None.

(** [get_comments], [get_play_counts], [get_popularimeters]:
    scribbu/id3v22.hh:311-345, id3v23.hh:417-447, id3v24.hh:453-483. *)
Fixpoint get_all (st : ltag) (l : list (N * N)) : outcome (list body) :=
  match l with
  | [] => Ok []
  | (a, _) :: r =>
      match at_addr a st with
      | None => UB Dangling
      | Some f => let* bs := get_all st r in Ok (f_body (c_frame f) :: bs)
      end
  end.
Definition get_comments (st : ltag) : outcome (list body) := get_all st (l_comms st).
Definition get_counts (st : ltag) : outcome (list body) := get_all st (l_counts st).
Definition get_popms (st : ltag) : outcome (list body) := get_all st (l_popms st).

(** [has_play_count]: scribbu/id3v22.hh:201-202, id3v23.hh:305-306 and
    id3v24.hh:337-338, which looks for the ID3v2.2 identifier. *)
Definition has_play_count (v : version) (st : ltag) : N :=
  match v with V23 => has_frame st (B "PCNT") | _ => has_frame st (B "CNT") end.

(** [play_count]: scribbu/id3v22.cc:302-312, id3v23.cc:673-683, id3v24.cc:744-756. *)
Definition play_count (v : version) (st : ltag) : outcome body :=
  match has_play_count v st with
  | 1 => match l_counts st with
         | [] => UB BadIterator
         | (a, _) :: _ => match at_addr a st with
                          | None => UB Dangling
                          | Some f => Ok (f_body (c_frame f))
                          end
         end
  | _ => Throw LogicError
  end.

(** ** Copies *)

(** The lookups of a copy: scribbu/id3v22.cc:201-212, id3v23.cc:348-365,
    id3v24.cc:498-514.  Each clone is registered as any frame, under the number
    of frames so far including itself. *)
Definition copy_step (v : version) (st : ltag) (c : cframe) : ltag :=
  add_lookups OvBase (l_next st) (id_of c) (size_l st + 1)
    (bump (set_frames (l_frames st ++ [(l_next st, clone v c)]) st)).
Definition copy_lookups (v : version) (st : ltag) : ltag :=
  fold_left (fun acc x => copy_step v acc (snd x)) (l_frames st) empty_ltag.

(** The copy constructors: in ID3v2.4 a tag without an extended header makes them
    dereference a null pointer; in ID3v2.3 and 2.4 the base class is initialised
    from the object under construction, so that the tag's unsynchronisation flag
    is indeterminate ([None]). *)
Definition copy (v : version) (has_ext unsync : bool) (st : ltag) : outcome (option bool * ltag) :=
  match v with
  | V22 => Ok (Some unsync, copy_lookups v st)
  | V23 => Ok (None, copy_lookups v st)
  | V24 => if has_ext then Ok (None, copy_lookups v st) else UB NullDeref
  end.
(** The assignment operators: scribbu/id3v22.cc:214-235, id3v23.cc:367-394,
    id3v24.cc:516-545; the base class is assigned from itself, so that the
    target's own flag [old] stays. *)
Definition copy_assign (v : version) (has_ext old : bool) (st : ltag) : outcome (option bool * ltag) :=
  match v with
  | V22 => Ok (Some old, copy_lookups v st)
  | _ => if has_ext then Ok (Some old, copy_lookups v st) else UB NullDeref
  end.
