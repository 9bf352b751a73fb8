(** * Model: ID3v2.2 tags (scribbu/id3v22.hh, id3v22.cc, framesv22.cc). *)
From Verif Require Import Base M_Ints M_Unsync M_Stream M_Payload M_Cloud M_Frame M_Tag23.

(** scribbu/framesv22.cc:148-175 [id3v2_2_frame::write_header]. *)
Definition header22 (f : frame) (cb_payload : N) : outcome bytes :=
  if 16777215 <? cb_payload then Throw RuntimeError
  else Ok (f_id f ++ be24 cb_payload).

(** scribbu/framesv22.cc:188-227, what [ensure_cached_data_is_fresh] puts in
    [cache_[SERIALIZED]]. *)
Definition wire22 (f : frame) : outcome bytes :=
  let* payload := write_body (f_body f) in
  let* h := header22 f (len payload) in
  Ok (h ++ payload).

(** scribbu/framesv22.cc:78-85 [serialized_size] and 101-109 [write]: each takes
    the plain cache when asked for unsynchronisation, and the other otherwise. *)
Definition cached22 (unsync : bool) (c : cframe) : bytes :=
  if unsync then c_plain c else c_unsync c.

(** scribbu/id3v22.hh [id3v2_2_tag]; the lookup tables are modelled in M_Lookup. *)
Record tag22 := mkTag22 { t2_unsync : option bool; t2_comp : bool; t2_pad : N;
                          t2_frames : list cframe }.

(** scribbu/id3v22.cc:237-249 [flags]. *)
Definition flags22 (t : tag22) : N :=
  bit_if (match t2_unsync t with Some true => true | _ => false end) 128 + bit_if (t2_comp t) 64.

(** scribbu/id3v22.cc:255-262 [size], with the caches as the call leaves them
    (framesv22.cc:188-227; the frames are never told which is the last). *)
Definition size22 (t : tag22) (unsync : bool) : outcome (N * tag22) :=
  let* fs := map_refresh wire22 (t2_frames t) in
  Ok (t2_pad t + sum_len (map (cached22 unsync) fs),
      mkTag22 (t2_unsync t) (t2_comp t) (t2_pad t) fs).

(** scribbu/id3v22.cc:264-269 [needs_unsynchronisation]. *)
Definition needs_unsync22 (t : tag22) : outcome bool :=
  frames_need wire22 false (t2_frames t).

(** scribbu/id3v22.cc:271-296 [write]. *)
Definition write22 (t : tag22) (unsync : bool) : outcome (bytes * tag22) :=
  let f := N.lor (flags22 t) (bit_if unsync 128) in
  let* (cb, t1) := size22 t unsync in
  let* h := tag_header 2 0 f cb in
  let* fs := map_refresh wire22 (t2_frames t1) in
  Ok (h ++ concat (map (cached22 unsync) fs) ++ repeatN 0 (t2_pad t1),
      mkTag22 (t2_unsync t1) (t2_comp t1) (t2_pad t1) fs).

(** scribbu/id3v22.cc:889-911: padding, or identifier and size of the next
    frame.  [l] is what is left of the tag, not empty; [after] the rest of the
    buffer. *)
Definition frame_head22 (l after : bytes) : outcome (option (bytes * N)) :=
  if (len l <=? 2) && all_zero l then Ok None
  else match l ++ after with
       | i0 :: i1 :: i2 :: _ =>
           if (i0 =? 0) && (i1 =? 0) && (i2 =? 0) then Ok None
           else match l with
                | _ :: _ :: _ :: s0 :: s1 :: s2 :: _ :: _ =>
                    Ok (Some ([i0; i1; i2], uint32_from_non_sync_safe3 s0 s1 s2))
                | _ => Throw InvalidTag
                end
       | _ => UB OutOfBounds
       end.

(** scribbu/id3v22.cc:869-934, the loop; frames and padding.  [cb_tag] is the
    size of the tag after resynchronisation. *)
Fixpoint frames22 (fuel : nat) (cb_tag : N) (l after : bytes) : outcome (list frame * N) :=
  match fuel with
  | O => NonTerm
  | S fuel =>
      match l with
      | [] => Ok ([], 0)
      | _ =>
          let* h := frame_head22 l after in
          match h with
          | None => Ok ([], len l)
          | Some (id, cb) =>
              if cb_tag <=? cb then Throw InvalidTag
              else
                let* b := parse_payload V22 (kind_of V22 id) (dropN 6 l ++ after) cb in
                let* (fs, pad) := frames22 fuel cb_tag (dropN (cb + 6) l) after in
                Ok (mkFrame id no_flags b :: fs, pad)
          end
      end
  end.

(** scribbu/id3v22.cc:836-949 [parse] on the bytes read, and the members that
    the constructor (188-199) sets. *)
Definition parse_body22 (flags : N) (buf : bytes) : outcome tag22 :=
  let unsync := negb (N.land flags 128 =? 0) in
  let l0 := if unsync then resynchronise buf else buf in
  let after := if unsync then resync_rest buf else [] in
  let* (fs, pad) := frames22 (S (length l0)) (len l0) l0 after in
  Ok (mkTag22 (Some unsync) (negb (N.land flags 64 =? 0)) pad (map new_frame fs)).

(** scribbu/id3v22.cc:188-199, the constructor from a stream and an [id3v2_info]. *)
Definition read22 (H : id3v2_info) : ST tag22 :=
  parse_stream (parse_body22 (i_flags H)) (i_size H).
