(** * Specification: what the report command does to the files. *)
From Verif Require Import Base M_Charset M_Fs M_Csv M_Report M_Split M_Rename M_Outputs.
#[local] Open Scope N_scope.

(** What an argument stands for: a file, or a directory with the regular files
    that are found below it, as they are now. *)
Definition files_at (cwd : bytes) (fs : fsys) (q : bytes) : list rfile :=
  match find_node (resolve cwd q) fs with Some (File d) => [file_of cwd q d] | _ => [] end.
Definition seen (cwd : bytes) (fs : fsys) (below : bytes -> list bytes) (p : bytes) : rarg :=
  if is_dir fs (resolve cwd p) then RDir (flat_map (files_at cwd fs) (below p))
  else match find_node (resolve cwd p) fs with Some (File d) => RFile (file_of cwd p d) | _ => RMissing end.

(** The output can be written, and is none of the files to be reported on. *)
Definition can_open (cwd : bytes) (fs : fsys) (out : bytes) : Prop :=
  is_dir fs (resolve cwd out) = false /\ is_dir fs (removelast (resolve cwd out)) = true /\ last out 47 <> 47.
Definition apart (cwd : bytes) (below : bytes -> list bytes) (out : bytes) (args : list bytes) : Prop :=
  forall p, In p args -> resolve cwd p <> resolve cwd out /\
    forall q, In q (below p) -> ends_in_mp3 q = true -> resolve cwd q <> resolve cwd out.

(** Nothing else has changed, and of the output there is the beginning. *)
Definition all_but (k : key) (fs fs' : fsys) : Prop := forall k', k' <> k -> find_node k' fs' = find_node k' fs.
Definition begun (k : key) (text : bytes) (fs : fsys) : Prop :=
  exists i, find_node k fs = Some (File (firstn i text)).

(** What is told at the end. *)
Definition told_at_end (ok err : N) : bytes :=
  B "Processed " ++ number 10 ok ++ B " files successfully; " ++ number 10 err ++ B " had errors." ++ [10].
Definition ends_with (no_summary : bool) (o : outcome (N * N)) (r : outcome (N * bytes)) : Prop :=
  match o with
  | Ok (ok, err) => r = Ok ((if err =? 0 then 0 else 1), if no_summary then [] else told_at_end ok err)
  | Throw _ => r = Ok (1, [])
  | UB u => r = UB u
  | NonTerm => r = NonTerm
  end.

(** The output cannot be written. *)
Definition cannot_open (cwd : bytes) (fs : fsys) (out : bytes) : Prop :=
  is_dir fs (resolve cwd out) = true \/ is_dir fs (removelast (resolve cwd out)) = false \/ last out 47 = 47.

(** The same options with --ascii-delimited given or not. *)
Definition with_ascii (b : bool) (vm : report_vm) : report_vm :=
  mkReportVm (rv_comments vm) (rv_output vm) (rv_tsv vm) (rv_v1enc vm) (rv_no_dir vm) b (rv_no_summary vm) (rv_args vm).
