(** * Model: whole tags under copying and under changes to the contents of their
      frames (scribbu/id3v22.cc, id3v23.cc, id3v24.cc). *)
From Verif Require Import Base M_Charset M_Payload M_Frame M_TextId M_Tag23 M_Tag22 M_Tag24 M_Lookup.

(** A setter called on the frame at a position: [edit_body] at that position.
    The setters are scribbu/framesv2.hh:852-875 (counter), 933-961 (popularimeter),
    framesv22.cc:324-350, framesv23.cc:543-569, framesv24.cc:323-335 (text),
    framesv2.hh:1066 on (tag cloud). *)
Fixpoint edit_nth (i : nat) (b : body) (l : list cframe) : list cframe :=
  match l, i with
  | [], _ => []
  | c :: r, O => edit_body b c :: r
  | c :: r, S j => c :: edit_nth j b r
  end.
Definition edits (es : list (nat * body)) (l : list cframe) : list cframe :=
  fold_left (fun l e => edit_nth (fst e) (snd e) l) es l.

Definition with_frames22 (fs : list cframe) (t : tag22) : tag22 := mkTag22 (t2_unsync t) (t2_comp t) (t2_pad t) fs.
Definition with_frames23 (fs : list cframe) (t : tag23) : tag23 :=
  mkTag23 (t3_unsync t) (t3_exp t) (t3_ext t) (t3_pad t) fs.
Definition with_frames24 (fs : list cframe) (t : tag24) : tag24 :=
  mkTag24 (t4_unsync t) (t4_exp t) (t4_foot t) (t4_ext t) (t4_pad t) fs.

(** The copy constructors: scribbu/id3v22.cc:201-212 (the frames' caches come
    along), id3v23.cc:348-365, id3v24.cc:499-514.  In the latter two the
    unsynchronisation flag of the copy is whatever [u] is in memory. *)
Definition copy22 (t : tag22) : tag22 := with_frames22 (map (clone V22) (t2_frames t)) t.
Definition copy23 (u : option bool) (t : tag23) : tag23 :=
  mkTag23 u (t3_exp t) (t3_ext t) (t3_pad t) (map (clone V23) (t3_frames t)).
Definition copy24 (u : option bool) (t : tag24) : outcome tag24 :=
  match t4_ext t with
  | None => UB NullDeref
  | Some _ => Ok (mkTag24 u (t4_exp t) (t4_foot t) (t4_ext t) (t4_pad t) (map (clone V24) (t4_frames t)))
  end.
