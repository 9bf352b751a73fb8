(** * Model: going through files and directories (src/command-utilities.hh). *)
From Verif Require Import Base M_Fs M_Split M_Rename.

(** [for_each] over a range of paths. *)
Fixpoint each (f : bytes -> FS unit) (l : list bytes) : FS unit :=
  match l with
  | [] => fret tt
  | p :: r => run _ <- f p;; each f r
  end.

Definition depth (fs : fsys) : nat := fold_right (fun e n => Nat.max (List.length (fst e)) n) O fs.

Section Dirent.
  (** [F.process_file], and what [directory_iterator] yields for a directory.
      (Simplified: what it yields does not depend on what is done under way.) *)
  Context (cwd : bytes) (visit : bytes -> FS unit) (entries : bytes -> list bytes).

  (** src/command-utilities.hh:553-561: one path.  (What is printed for those
      that are skipped is left out.) *)
  Fixpoint dirent (fuel : nat) (p : bytes) : FS unit := fun fs =>
    if is_dir fs (resolve cwd p) then
      match fuel with
      | O => flift NonTerm fs
      | S fuel => each (dirent fuel) (entries p) fs
      end
    else if is_regular cwd fs p then visit p fs
    else fret tt fs.

  (** src/command-utilities.hh:543-563 [process_dirent_args]. *)
  Definition process_dirent_args (args : list bytes) : FS unit := fun fs => each (dirent (S (depth fs))) args fs.
End Dirent.
