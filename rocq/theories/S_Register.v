(** * Specification: which parser is run for a frame of an ID3v2.2 tag. *)
From Verif Require Import Base M_Payload M_Frame M_Tag22 M_Register.
#[local] Open Scope N_scope.

Section Apps.
Context {A : Type}.

(** The parsers offered, in order. *)
Definition generics (h : list (act A)) : list (bytes * parser A) :=
  flat_map (fun a => match a with RegGeneric id f => [(id, f)] | _ => [] end) h.
Definition texts (h : list (act A)) : list (bytes * parser A) :=
  flat_map (fun a => match a with RegText id f => [(id, f)] | _ => [] end) h.

(** The first offered for an identifier; none was. *)
Definition first_for (l : list (bytes * parser A)) (id : bytes) (f : parser A) : Prop :=
  exists l1 l2, l = l1 ++ (id, f) :: l2 /\ ~ In id (map fst l1).
Definition none_for (l : list (bytes * parser A)) (id : bytes) : Prop := ~ In id (map fst l).

(** Identifiers that are always the library's; those that are unless a text parser is
    offered; those refused. *)
Definition fixed (id : bytes) : Prop :=
  id = B "COM" \/ id = B "CNT" \/ id = B "POP" \/ In id text_ids22.
Definition known (id : bytes) : Prop := id = B "UFI" \/ id = B "TXX" \/ id = B "XTG".
Definition refused (id : bytes) : Prop := id = B "COM" \/ id = B "PCT" \/ id = B "POP".

(** The parser for [id], when [gs] and [ts] have been offered. *)
Inductive chosen (gs ts : list (bytes * parser A)) (id : bytes) : parser A -> Prop :=
| ch_fixed : fixed id -> chosen gs ts id (built_in V22 (kind_of V22 id))
| ch_text f : ~ fixed id -> first_for ts id f -> chosen gs ts id f
| ch_known : ~ fixed id -> none_for ts id -> known id -> chosen gs ts id (built_in V22 (kind_of V22 id))
| ch_generic f : ~ fixed id -> none_for ts id -> ~ known id -> ~ refused id -> first_for gs id f -> chosen gs ts id f
| ch_unknown : ~ fixed id -> none_for ts id -> ~ known id -> refused id \/ none_for gs id ->
    chosen gs ts id (built_in V22 KUnknown).

(** The frames section of a tag, as the standard lays it out, and the frames that the
    parsers chosen make of it; [beyond] is what follows it in memory. *)
Inductive laid_and_made (gs ts : list (bytes * parser A)) (beyond : bytes)
  : list (bytes * made A) -> N -> bytes -> Prop :=
| lm_pad : forall pad, laid_and_made gs ts beyond [] pad (repeatN 0 pad)
| lm_frame : forall id f m p ms pad l s0 s1 s2,
    len id = 3 -> hd 0 id <> 0 -> p <> [] ->
    Forall (fun x => x < 256) [s0; s1; s2] ->
    len p = 65536 * s0 + 256 * s1 + s2 ->
    chosen gs ts id f -> f id (p ++ l ++ beyond) (len p) = Ok m ->
    laid_and_made gs ts beyond ms pad l ->
    laid_and_made gs ts beyond ((id, m) :: ms) pad (id ++ [s0; s1; s2] ++ p ++ l).

(** ** Histories *)

(** The construction of [t] is not begun or ended. *)
Definition not_constructing (t : nat) (a : act A) : Prop :=
  match a with Begin u => u <> t | Finish u _ _ => u <> t | _ => True end.
(** Nothing is assigned to [t]. *)
Definition not_assigning (t : nat) (a : act A) : Prop :=
  match a with Finish u _ _ => u <> t | CopyTag _ u => u <> t | _ => True end.
(** Nothing is registered with a tag; by the application as a default. *)
Definition not_with_tag (a : act A) : bool :=
  match a with TagGeneric _ _ _ => false | TagText _ _ _ => false | _ => true end.
Definition not_default (a : act A) : Prop :=
  match a with RegGeneric _ _ => False | RegText _ _ => False | _ => True end.

(** The frames and the padding of tag [t]. *)
Definition holds (w : world A) (t : nat) : option (list (bytes * made A) * N) :=
  option_map (fun o => (o_frames o, o_pad o)) (w_tags w t).
End Apps.
