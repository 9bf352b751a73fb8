(** * Specification: how the tags of encoders are laid out. *)
From Verif Require Import Base M_Vbr.
#[local] Open Scope N_scope.

(** A number in four bytes, the most significant first. *)
Definition four (n : N) : bytes := [n / 2 ^ 24; n / 2 ^ 16 mod 256; n / 2 ^ 8 mod 256; n mod 256].
Definition maybe {A} (f : A -> bytes) (o : option A) : bytes := match o with Some a => f a | None => [] end.
Definition given {A} (o : option A) (bit : N) : N := match o with Some _ => bit | None => 0 end.

(** What follows "Xing" or "Info": flags in four bytes, of which the last four bits
    say what is there, and then that. [spare] are the other flags. *)
Definition xing_flags (x : xing) : N := given (xi_frames x) 1 + given (xi_bytes x) 2 + given (xi_toc x) 4 + given (xi_quality x) 8.
Definition xing_laid (spare : bytes) (high : N) (x : xing) : bytes :=
  spare ++ [16 * high + xing_flags x] ++ maybe four (xi_frames x) ++ maybe four (xi_bytes x) ++ maybe (fun t => t) (xi_toc x) ++ maybe four (xi_quality x).
Definition fits {A} (Q : A -> Prop) (o : option A) : Prop := match o with Some a => Q a | None => True end.
Definition xing_fits (x : xing) : Prop :=
  fits (fun n => n < 2 ^ 32) (xi_frames x) /\ fits (fun n => n < 2 ^ 32) (xi_bytes x) /\ fits (fun t => len t = 100) (xi_toc x) /\
  fits (fun n => n < 2 ^ 32) (xi_quality x).

(** The methods by their numbers. *)
Definition methods : list (N * vbr_method) :=
  [(1, MConstant); (2, MAbr); (3, MVbr1); (4, MVbr2); (5, MVbr3); (6, MVbr4); (8, MCbrTwoPass); (9, MAbrTwoPass)].
Definition is_method (k : N) (m : vbr_method) : Prop :=
  In (k, m) methods \/ (m = MUnknown /\ ~ In k (map fst methods)).

(** What follows the first four bytes of a LAME tag: the rest of the name, revision
    and method, ten bytes (low-pass filter, replay gain, flags), the bit rate, seven
    bytes (delays and the like), the length of the music. *)
Definition lame_laid (name5 : bytes) (revision method : N) (ten : bytes) (rate : N) (seven : bytes) (music : N) : bytes :=
  name5 ++ [16 * revision + method] ++ ten ++ [rate] ++ seven ++ four music.
