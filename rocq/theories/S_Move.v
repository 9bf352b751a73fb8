(** * Specification: what is left of a tag once frames have been removed. *)
From Verif Require Import Base M_Charset M_Payload M_Frame M_TextId M_Lookup S_Lookup.
#[local] Open Scope N_scope.

(** The frames that stay, in order. *)
Definition kept (p : frame -> bool) (fs : list frame) : list frame := filter (fun f => negb (p f)) fs.

(** A frame whose name starts with T without its being a text frame: a
    user-defined text, or a frame of a type that is not known. *)
Definition odd_text (f : frame) : Prop := text_id (f_id f) = true /\ forall t, f_body f <> BText t.

(** Two frames of a list change places. *)
Definition swapped {A} (i j : N) (l l' : list A) : Prop :=
  nthN l' j = nthN l i /\ nthN l' i = nthN l j /\
  length l' = length l /\ forall k, k <> i -> k <> j -> nthN l' k = nthN l k.
