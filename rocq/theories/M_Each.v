(** * Model: taking frames out of a tag one at a time (the [iterator]s of scribbu/id3v2.hh:932-1060,
      with [erase] of scribbu/id3v22.cc, id3v23.cc and id3v24.cc). *)
From Verif Require Import Base M_Charset M_Payload M_Frame M_TextId M_Lookup.
#[local] Open Scope N_scope.

(** [for (auto p = tag.begin(); p != tag.end(); ) if (f( *p)) p = tag.erase(p); else ++p;]
    scribbu/id3v2.hh:1016-1017 [++], 1054-1058 [*] and [->], 958-961 [!=]; id3v22.cc:652-658,
    id3v23.cc:1032-1038, id3v24.cc:1046-1051 [erase], which answers the place of the frame
    after.  [n] frames are left from index [i] on. *)
Fixpoint each_from (v : version) (p : frame -> bool) (n : nat) (i : N) (st : ltag) : outcome ltag :=
  match n with
  | O => Ok st
  | S m => match nthN (l_frames st) i with
           | None => UB BadIterator
           | Some (_, c) =>
               if p (c_frame c) then let* st1 := erase v i st in each_from v p m i st1
               else each_from v p m (i + 1) st
           end
  end.
Definition erase_each (v : version) (p : frame -> bool) (st : ltag) : outcome ltag :=
  each_from v p (length (l_frames st)) 0 st.

(** The same from the back: [for (auto p = tag.end(); p != tag.begin(); ) { --p; if (f( *p)) p = tag.erase(p); }].
    scribbu/id3v2.hh:1026-1027 [--].  [n] frames are left before. *)
Fixpoint each_before (v : version) (p : frame -> bool) (n : nat) (st : ltag) : outcome ltag :=
  match n with
  | O => Ok st
  | S m => match nthN (l_frames st) (N.of_nat m) with
           | None => UB BadIterator
           | Some (_, c) =>
               let* st1 := if p (c_frame c) then erase v (N.of_nat m) st else Ok st in
               each_before v p m st1
           end
  end.
Definition erase_back (v : version) (p : frame -> bool) (st : ltag) : outcome ltag :=
  each_before v p (length (l_frames st)) st.
