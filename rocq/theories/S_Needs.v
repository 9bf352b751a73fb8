(** * Specification: when a tag needs to be unsynchronised. *)
From Verif Require Import Base M_Frame M_Unsync.

(** Somewhere an ff is followed by a byte from ea on.  (The standard says from e0
    on; the code compares with e9.) *)
Definition hides_sync (w : bytes) : Prop :=
  exists i y, nth_error w i = Some 255 /\ nth_error w (S i) = Some y /\ 234 <= y.

(** A frame that has not been written since it was last changed, or whose count
    of syncs is that of its bytes. *)
Definition counted (wire : frame -> outcome bytes) (c : cframe) : Prop :=
  c_dirty c = false -> exists w, wire (c_frame c) = Ok w /\ c_syncs c = count_syncs w true.
