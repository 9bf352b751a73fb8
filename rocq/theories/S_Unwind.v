(** * Specification: acquired and released. *)
From Verif Require Import Base M_Unwind.

Lemma event_eq_dec : forall x y : event, {x = y} + {x <> y}.
Proof. repeat decide equality. Defined.
(** How often something is seen. *)
Definition times (x : event) (tr : list event) : nat := count_occ event_eq_dec tr x.

(** [y] is seen once, after [x], which is seen once. *)
Definition once_after (x y : event) (tr : list event) : Prop :=
  exists t1 t2 t3, tr = t1 ++ x :: t2 ++ y :: t3 /\
    ~ In x (t1 ++ t2 ++ t3) /\ ~ In y (t1 ++ t2 ++ t3).

(** Every string is got inside a context. *)
Fixpoint covered (c : code) : bool :=
  match c with
  | Str => false
  | Local _ c => covered c
  | Seq a b => covered a && covered b
  | Choice a b => covered a && covered b
  | Loop c => covered c
  | Ctx _ => true
  | Try c h => covered c && covered h
  | Caught c => covered c
  | _ => true
  end.
(** Errors of the interpreter's are not caught. *)
Fixpoint uncaught (c : code) : bool :=
  match c with
  | Local _ c => uncaught c
  | Seq a b => uncaught a && uncaught b
  | Choice a b => uncaught a && uncaught b
  | Loop c => uncaught c
  | Ctx c => uncaught c
  | Try c h => uncaught c && uncaught h
  | Caught _ => false
  | _ => true
  end.

(** What is open in the end. *)
Definition left_open (o : holding) (i : nat) (tr : list event) : Prop :=
  In (Opened o i) tr /\ ~ In (Closed o i) tr.

(** The five procedures. *)
Definition procedures : list code := [read_id3v1; read_tagset; with_track_in; write_id3v1; write_tagset].
