(** * Specification: errors whose message can be shown. *)
From Verif Require Import Base M_What.
#[local] Open Scope N_scope.

(** Characters other than zero. *)
Definition visible (l : bytes) : Prop := ~ In 0 l.
Definition fid_visible (i : fid) : Prop :=
  match i with F3 a0 a1 a2 => visible [a0; a1; a2] | F4 a0 a1 a2 a3 => visible [a0; a1; a2; a3] end.
Definition showable (x : problem) : Prop :=
  match x with
  | WDuplicateFrame i _ | WUnknownFrame i | WReservedFrame i => fid_visible i
  | WSeparator c => c < 256
  | WUnicode c => c <> 0
  | WMissing _ (Some t) | WNotFound t | WOpen t _ => visible t
  | _ => True
  end.

(** The system's messages: one for each error, without zeros and apostrophes. *)
Definition system_messages (strerr : N -> bytes) : Prop :=
  (forall e, visible (strerr e) /\ ~ In 39 (strerr e)) /\ forall e f, strerr e = strerr f -> e = f.

(** What a message has to mention: the frame by its identifier, numbers in decimal
    (a number is what its digits say), the tag, the file and the system's message. *)
Definition says (n : N) (ds : bytes) : Prop :=
  ds <> [] /\ (forall c, In c ds -> 48 <= c <= 57) /\ fold_left (fun k c => 10 * k + (c - 48)) ds 0 = n.
Definition fid_chars (i : fid) : bytes := match i with F3 a0 a1 a2 => [a0; a1; a2] | F4 a0 a1 a2 a3 => [a0; a1; a2; a3] end.
Definition within (part l : bytes) : Prop := exists u v, l = u ++ part ++ v.
(** Messages that have a number in them do so for one way of writing it. *)
Definition numbered (x : problem) : option N :=
  match x with WDuplicateFrame _ n => Some n | WUnknownVersion v | WV2Version v | WGenre v => Some v | _ => None end.
Definition named (strerr : N -> bytes) (x : problem) : list bytes :=
  match x with
  | WDuplicateFrame i _ | WUnknownFrame i | WReservedFrame i => [fid_chars i]
  | WMissing _ (Some t) => [t]
  | WOpen name e => [name; strerr e]
  | WIconv e => [strerr e]
  | _ => []
  end.
