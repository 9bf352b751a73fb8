(** * C51, continued: the encodings that are listed. *)
From Verif Require Import Base M_Charset M_Encodings L_Encodings.
#[local] Open Scope N_scope.

(** What [scribbu encodings] prints is one name to a line, each once, and they are
    exactly the names that are accepted where an encoding is asked for. *)
Theorem C51_listed : exists names, list_encodings = flat_map (fun n => n ++ [10]) names /\
  NoDup names /\ (forall n, In n names -> ~ In 10 n) /\
  forall w, In w names <-> exists e, enc_of_name w = Ok e.
Proof. exists (map enc_name enc_values). exact listed_l. Qed.
Print Assumptions C51_listed.
Example C51_listed_nontrivial : length enc_values = 99%nat /\ firstn 17 list_encodings = B "ASCII" ++ [10] ++ B "ISO-8859-1" ++ [10].
Proof. split; vm_compute; reflexivity. Qed.

(** The names of the three responses to text that cannot be converted are read
    back as what they name, and no other name is accepted. *)
Theorem C51_responses : (forall x, noenc_of_name (noenc_name x) = Ok x) /\
  (forall w x, noenc_of_name w = Ok x -> w = noenc_name x).
Proof. exact noenc_l. Qed.
Print Assumptions C51_responses.
Example C51_responses_nontrivial : noenc_of_name (B "transliterate") = Ok NoTranslit /\ noenc_of_name (B "translit") = Throw OutOfRange.
Proof. split; vm_compute; reflexivity. Qed.
