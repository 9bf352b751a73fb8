(** * Model: moving frames within a tag, as the standard algorithms do, and the
      erase-remove idiom (scribbu/id3v22.cc, id3v23.cc, id3v24.cc). *)
From Verif Require Import Base M_Charset M_Payload M_Frame M_TextId M_Lookup.
#[local] Open Scope N_scope.

(** The overload of [add_frame_to_lookups] that a move assignment picks from the
    frame's identifier, with the [dynamic_cast] to a reference that goes with it:
    scribbu/id3v22.cc:404-424, id3v23.cc:783-803, id3v24.cc:856-876. *)
Definition over_moved (v : version) (c : cframe) : outcome over :=
  if bytes_eqb (id_of c) (count_id v) then
    match f_body (c_frame c) with BCount _ => Ok OvCount | _ => Throw BadCast end
  else if bytes_eqb (id_of c) (comm_id v) then
    match f_body (c_frame c) with BComm _ => Ok OvComm | _ => Throw BadCast end
  else if bytes_eqb (id_of c) (popm_id v) then
    match f_body (c_frame c) with BPopm _ => Ok OvPopm | _ => Throw BadCast end
  else if text_id (id_of c) then
    match f_body (c_frame c) with BText _ => Ok OvText | _ => Throw BadCast end
  else Ok OvBase.

(** Move assignment of one frame proxy to another of the same tag, that is
    [*(begin() + i) = std::move( *(begin() + j))]: scribbu/id3v22.cc:392-427,
    id3v23.cc:771-806, id3v24.cc:844-879.  The frame at [i] leaves the lookups,
    the two frames change places, and the frame now at [j] is registered there.
    An index out of range is undefined ([frames_] is a vector). *)
Definition move_assign (v : version) (i j : N) (st : ltag) : outcome ltag :=
  match nthN (l_frames st) i, nthN (l_frames st) j with
  | Some x, Some y =>
      let* st1 := remove_lookups v (id_of (snd x)) i st in
      let* o := over_moved v (snd x) in
      Ok (add_lookups o (fst x) (id_of (snd x)) j
            (set_frames (replace_at j x (replace_at i y (l_frames st1))) st1))
  | _, _ => UB OutOfBounds
  end.

(** [std::remove_if] on [begin()], [end()] of a tag (the libstdc++ algorithm, used
    in test/id3v2-edit.cc:128-130): the first frame to go is looked for; from there
    on each frame that stays is move assigned to the place [d] after the frames
    that stayed so far.  [n] frames are left from index [j] on. *)
Fixpoint shift_kept (v : version) (p : frame -> bool) (n : nat) (d j : N) (st : ltag) : outcome (N * ltag) :=
  match n with
  | O => Ok (d, st)
  | S m => match nthN (l_frames st) j with
           | None => UB BadIterator
           | Some (_, c) =>
               if p (c_frame c) then shift_kept v p m d (j + 1) st
               else let* st1 := move_assign v d j st in shift_kept v p m (d + 1) (j + 1) st1
           end
  end.
Fixpoint find_frame (p : frame -> bool) (fs : list (N * cframe)) : nat :=
  match fs with
  | [] => O
  | (_, c) :: r => if p (c_frame c) then O else S (find_frame p r)
  end.
Definition remove_if (v : version) (p : frame -> bool) (st : ltag) : outcome (N * ltag) :=
  let k := find_frame p (l_frames st) in
  if Nat.eqb k (length (l_frames st)) then Ok (size_l st, st)
  else shift_kept v p (length (l_frames st) - S k) (N.of_nat k) (N.of_nat k + 1) st.

(** [tag.erase(remove_if(tag.begin(), tag.end(), p), tag.end())], as in
    test/id3v2-edit.cc:128-134. *)
Definition erase_remove (v : version) (p : frame -> bool) (st : ltag) : outcome ltag :=
  let* (d, st1) := remove_if v p st in
  erase_range v d (length (l_frames st1) - N.to_nat d) st1.
