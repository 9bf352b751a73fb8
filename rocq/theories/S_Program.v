(** * Specification: what the program may do to files, and how it may end. *)
From Verif Require Import Base M_Fs M_Options M_Main S_Main S_Options M_Po S_Po.
#[local] Open Scope N_scope.

(** The arguments have it that the sub-command is run with the rest: what comes
    before its name are options for Guile. *)
Definition runs (name : string) (rest argv : list bytes) : Prop := exists pre, leading pre [] /\ argv = pre ++ B name :: rest.

(** Throughout a run, and so if it is cut off, and after it, these are as before. *)
Definition spared (P : key -> Prop) (r : list fsys * (outcome N * fsys)) (fs : fsys) : Prop :=
  forall s, In s (snd (snd r) :: fst r) -> forall k, P k -> find_node k s = find_node k fs.

(** What the status tells: 0, 1 or 2, and that nothing has been done if it is 2. *)
Definition told (r : list fsys * (outcome N * fsys)) (fs : fsys) : Prop :=
  forall n, ended_with r n -> n <= 2 /\ (n = 2 -> untouched r fs).

(** The options are all in order. *)
Definition in_order (T : tables) (tokens : list bytes) (cl : parsed) (vars : list (bytes * bytes)) : Prop :=
  line T tokens cl /\ enough_room T cl /\ no_help tokens /\ known_vars T vars /\ forall d, In d (t_all T) -> exists v, worth T cl vars d v.
(** The options other than this one. *)
Definition without (k : string) (cl : parsed) : parsed := filter (fun p => negb (bytes_eqb (fst p) (B k))) cl.
Definition has_option (k : string) (cl : parsed) : Prop := In (B k) (map fst cl).
