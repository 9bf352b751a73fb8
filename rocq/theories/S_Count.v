(** * Specification: the syncs in some bytes, counted place by place. *)
From Verif Require Import Base M_Cloud.

(** How many places of [w] hold an [x] followed by a [y] with [P x y]. *)
Definition places (P : N -> N -> bool) (w : bytes) : N :=
  N.of_nat (length (filter
    (fun i => match nth_error w i, nth_error w (S i) with
              | Some x, Some y => P x y
              | _, _ => false
              end) (seq 0 (length w)))).

(** False syncs as the standard has them: eleven bits set. *)
Definition false_syncs : bytes -> N := places (fun x y => (x =? 255) && (224 <=? y)).
(** Those of them whose second byte is from e0 to e9. *)
Definition low_syncs : bytes -> N := places (fun x y => (x =? 255) && (224 <=? y) && (y <=? 233)).
(** One if the bytes end with ff. *)
Definition ends_ff (l : bytes) : N := if last l 0 =? 255 then 1 else 0.
(** One if [d] ends and [t] begins with a pair with [P]. *)
Definition crosses (P : N -> N -> bool) (d t : bytes) : N :=
  match rev d, t with
  | x :: _, y :: _ => if P x y then 1 else 0
  | _, _ => 0
  end.
(** The pairs that the code takes for false syncs, and those that it takes for
    pairs to be protected. *)
Definition taken_false (x y : N) : bool := (x =? 255) && (234 <=? y).
Definition taken_bare (x y : N) : bool := (x =? 255) && ((y =? 0) || (234 <=? y)).
(** A key of a tag cloud without an ff in it or in its values, the values, with a
    NUL each, taking fewer than ea00 bytes, and not ff modulo a hundred (hex). *)
Definition calm_entry (kv : bytes * list bytes) : Prop :=
  ~ In 255 (fst kv) /\ Forall (fun v => ~ In 255 v) (snd kv) /\
  values_size (snd kv) < 59904 /\ values_size (snd kv) mod 256 <> 255.
