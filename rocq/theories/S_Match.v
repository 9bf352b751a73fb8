(** * Specification: edit distance and closest entries. *)
From Verif Require Import Base.

(** [align A B d]: [A] becomes [B] by [d] edits, from left to right, an edit being
    the substitution, the deletion or the insertion of a character, or the swap
    of two adjacent characters, which are then left alone. *)
Inductive align : list N -> list N -> nat -> Prop :=
| align_nil : align [] [] 0
| align_same c a b d : align a b d -> align (c :: a) (c :: b) d
| align_subst x y a b d : align a b d -> align (x :: a) (y :: b) (S d)
| align_delete x a b d : align a b d -> align (x :: a) b (S d)
| align_insert y a b d : align a b d -> align a (y :: b) (S d)
| align_swap x y a b d : align a b d -> align (x :: y :: a) (y :: x :: b) (S d).

(** The distance is the least number of edits. *)
Definition dist (A B : list N) (d : nat) : Prop :=
  align A B d /\ forall d', align A B d' -> (d <= d')%nat.

(** [i] is the first of the entries of [table] closest to [B], among those that
    satisfy [P], and lies at distance [d]. *)
Definition first_closest (P : list N -> Prop) (table : list (list N)) (B : list N) (i d : nat) : Prop :=
  (exists g, nth_error table i = Some g /\ dist g B d) /\
  (forall j g e, nth_error table j = Some g -> P g -> dist g B e -> (d <= e)%nat /\ (j < i -> d < e)%nat).

(** An ASCII letter in lower case. *)
Definition low (c : N) : N := (if (65 <=? c) && (c <=? 90) then c + 32 else c)%N.
