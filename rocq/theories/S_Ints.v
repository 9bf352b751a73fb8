(** * Specification: positional numbers. *)
From Verif Require Import Base.

(** The number whose digits in base [base], most significant first, are [ds]. *)
Definition positional (base : N) (ds : list N) : N :=
  fold_left (fun acc d => acc * base + d) ds 0.
