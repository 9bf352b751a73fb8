(** * Specification: the files below a path. *)
From Verif Require Import Base M_Fs M_Split S_Tagset.
From Coq Require Import Sorting.Permutation.

(** A directory tree: no name twice, plain names only, and everything stands in a
    directory.  The root directory is not listed. *)
Definition tree (fs : fsys) : Prop :=
  NoDup (map fst fs) /\ ~ In [] (map fst fs) /\ Forall (fun k => Forall plain_name k) (map fst fs) /\
  forall d n, In (d ++ [n]) (map fst fs) -> is_dir fs d = true.

(** The entries of the directory [p], by path. *)
Definition names_in (fs : fsys) (d : key) : list bytes :=
  fold_right (fun e l => match entry_of d (fst e) with Some n => n :: l | None => l end) [] fs.
Definition lists_entries (cwd : bytes) (fs : fsys) (p : bytes) (l : list bytes) : Prop :=
  Permutation l (map (join p) (names_in fs (resolve cwd p))).

(** [l] names the regular files at or below [p], each of them once. *)
Definition files_below (cwd : bytes) (fs : fsys) (p : bytes) (l : list bytes) : Prop :=
  NoDup (map (resolve cwd) l) /\
  forall k, In k (map (resolve cwd) l) <-> (exists b, find_node k fs = Some (File b)) /\ exists rest, k = resolve cwd p ++ rest.

(** The same files and directories are there, whatever the files' contents. *)
Definition same_shape (fs s : fsys) : Prop :=
  forall k, match find_node k fs, find_node k s with
            | Some (File _), Some (File _) | Some Dir, Some Dir | None, None => True
            | _, _ => False
            end.
