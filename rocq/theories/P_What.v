(** * C111: what went wrong can be told from the message. *)
From Verif Require Import Base M_Tagset S_Tagset L_Fs L_M3u M_What S_What L_What.
#[local] Open Scope N_scope.

(** ** Two errors with the same message are the same error: of the same kind, about the
    same frame, file, tag, number or cause. *)
Theorem C111_told : forall (strerr : N -> bytes) (x y : problem),
  system_messages strerr -> showable x -> showable y -> what strerr x = what strerr y -> x = y.
Proof. exact what_told. Qed.
Print Assumptions C111_told.

(** ** What the error is about is in the message as it is. *)
Theorem C111_named : forall (strerr : N -> bytes) (x : problem) (part : bytes),
  system_messages strerr -> showable x -> In part (named strerr x) -> within part (what strerr x).
Proof. exact what_names. Qed.
Print Assumptions C111_named.

(** ** And a number is there in decimal. *)
Theorem C111_numbered : forall (strerr : N -> bytes) (x : problem) (n : N),
  system_messages strerr -> showable x -> numbered x = Some n -> exists ds, says n ds /\ within ds (what strerr x).
Proof. exact what_numbers. Qed.
Print Assumptions C111_numbered.

Definition ex_strerr (e : N) : bytes := B "Error number " ++ decimal e.
Example C111_nontrivial :
  system_messages ex_strerr /\
  showable (WDuplicateFrame (F3 84 84 50) 3) /\
  what ex_strerr (WDuplicateFrame (F3 84 84 50) 3) = B "Frame TT2 was defined 3 times" /\
  what ex_strerr (WDuplicateFrame (F4 84 73 84 50) 12) = B "Frame TIT2 was defined 12 times" /\
  what ex_strerr (WOpen (B "it's") 2) = B "Failed to open `it's': Error number 2".
Proof.
  split; [split|].
  - intros e. split; [apply visible_app; [now apply visible_check|apply visible_decimal]|].
    intros X. apply in_app_iff in X as [X|X]; [cbn in X; intuition discriminate|]. now apply (decimal_no e 39).
  - intros e f H. apply app_inv_head in H. now apply decimal_injective.
  - split; [cbn; unfold visible; cbn; intuition discriminate|]. repeat split; vm_compute; reflexivity.
Qed.

(** ** Identifiers are not checked, and one with a zero in front ends the message: all
    such frames are alike. *)
Theorem C111_zero_refuted : forall (strerr : N -> bytes) (a1 a2 a3 b1 b2 b3 : N),
  what strerr (WUnknownFrame (F4 0 a1 a2 a3)) = what strerr (WUnknownFrame (F4 0 b1 b2 b3)).
Proof. exact zero_ends. Qed.
Print Assumptions C111_zero_refuted.
