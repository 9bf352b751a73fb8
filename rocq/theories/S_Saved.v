(** * Specification: saved tags that can be read back. *)
From Verif Require Import Base M_Payload M_Frame M_Tag22 M_Tag23 M_Tag24 M_Read M_Tagset S_Unsync S_Tag S_Tag22 S_Tag23 S_Tag24 S_Tagset.

(** Tags that survive being written with the given treatment of
    unsynchronisation: well-formed, without frame flags (C15), and
    - in ID3v2.2, marked as unsynchronised and written without, or with nothing to
      unsynchronise (C18);
    - in ID3v2.3, without extended header or with a plain one, and marked as
      unsynchronised only if written with unsynchronisation (C17);
    - in ID3v2.4, without footer and padding, with a simple extended header if
      any, and written without unsynchronisation or with nothing to
      unsynchronise (C19). *)
Definition storable (z : zlib) (m : apply_unsync) (t : anytag) : Prop :=
  match t with
  | A22 t => wf_tag22 t /\
             (t2_unsync t = Some true /\ m = Never \/ Forall unaffected22 (map c_frame (t2_frames t)))
  | A23 t => wf_tag23 z t /\ Forall plain_flags (map c_frame (t3_frames t)) /\ ext_plain (t3_ext t) /\
             (t3_unsync t = Some true -> m = Always)
  | A24 t => wf_tag24 z t /\ Forall plain_flags (map c_frame (t4_frames t)) /\
             (m = Never \/ Forall (unaffected24 z) (map c_frame (t4_frames t))) /\
             ext_simple (t4_ext t) /\ t4_foot t = false /\ t4_pad t = 0
  end.

(** The same version, the same frames in the same order, the same marks and the
    same extended header. *)
Definition same_tag (t t' : anytag) : Prop :=
  match t, t' with
  | A22 t, A22 t' => map c_frame (t2_frames t') = map c_frame (t2_frames t) /\ t2_comp t' = t2_comp t
  | A23 t, A23 t' => map c_frame (t3_frames t') = map c_frame (t3_frames t) /\ t3_exp t' = t3_exp t /\
                     same_ext (t3_ext t) (t3_ext t')
  | A24 t, A24 t' => map c_frame (t4_frames t') = map c_frame (t4_frames t) /\ t4_exp t' = t4_exp t /\
                     t4_ext t' = t4_ext t /\ t4_foot t' = t4_foot t
  | _, _ => False
  end.

(** Whether a tag says that it is unsynchronised. *)
Definition any_unsync (t : anytag) : option bool :=
  match t with A22 t => t2_unsync t | A23 t => t3_unsync t | A24 t => t4_unsync t end.

(** The same padding, or one byte less in an unsynchronised tag. *)
Definition same_padding (t t' : anytag) : Prop :=
  any_padding t' = any_padding t \/ any_unsync t' = Some true /\ any_padding t' + 1 = any_padding t.

(** What the tag read says of its own unsynchronisation: in ID3v2.3 what was done,
    in ID3v2.4 what the tag saved said. *)
Definition marked (m : apply_unsync) (t t' : anytag) : Prop :=
  match t, t' with
  | A22 _, A22 _ => True
  | A23 _, A23 t' => (m = Never -> t3_unsync t' = Some false) /\ (m = Always -> t3_unsync t' = Some true)
  | A24 t, A24 t' => t4_unsync t' = Some (match t4_unsync t with Some true => true | _ => false end)
  | _, _ => False
  end.
