(** * Properties: renaming files (C41). *)
From Verif Require Import Base M_Fs M_Split M_Rename S_Tagset S_Rename L_Rename L_Rename2 L_Rename3.

(** C41: whatever names the template makes of the files, whatever order they are
    visited in, wherever a copy breaks off and wherever the run is cut short, every
    file's content is there under some name, and no file took the place of
    another. *)
Theorem C41_nothing_lost : forall cwd tp broken o entries args fs,
  let r := rename_args cwd tp broken o entries args fs in
  Forall (nothing_lost fs) (snd (snd r) :: fst r).
Proof. exact rename_lost. Qed.
Print Assumptions C41_nothing_lost.

(** Two files that are to change names by way of a third, and one that cannot. *)
Definition ex_fs : fsys :=
  [([B "m"; B "a.mp3"], File [1]); ([B "m"; B "b.mp3"], File [2; 3]); ([B "m"; B "c.mp3"], File [4]); ([B "m"], Dir)].
Definition ex_tp (fs : fsys) (p : bytes) : outcome bytes :=
  if bytes_eqb p (B "/m/a.mp3") then Ok (B "t.mp3")
  else if bytes_eqb p (B "/m/b.mp3") then Ok (B "a.mp3")
  else if bytes_eqb p (B "/m/t.mp3") then Ok (B "b.mp3")
  else Ok (B "a.mp3").
Definition ex_run : list fsys * (outcome unit * fsys) :=
  rename_args (B "/") ex_tp (fun _ => None) (mkRopts [] false true)
    (fun _ => [B "/m/a.mp3"; B "/m/b.mp3"; B "/m/t.mp3"; B "/m/c.mp3"]) [B "/m"] ex_fs.
Example C41_nothing_lost_nontrivial :
  List.length (fst ex_run) = 10%nat /\ fst (snd ex_run) = Throw FsError /\
  find_node [B "m"; B "a.mp3"] (snd (snd ex_run)) = Some (File [2; 3]) /\
  find_node [B "m"; B "b.mp3"] (snd (snd ex_run)) = Some (File [1]) /\
  find_node [B "m"; B "c.mp3"] (snd (snd ex_run)) = Some (File [4]) /\
  find_node [B "m"; B "t.mp3"] (snd (snd ex_run)) = None.
Proof. repeat split; vm_compute; reflexivity. Qed.

(** Without --rename every file and directory stays just as it is. *)
Theorem C41_copies : forall cwd tp broken o entries args fs, ro_rename o = false ->
  let r := rename_args cwd tp broken o entries args fs in
  Forall (nothing_changed fs) (snd (snd r) :: fst r).
Proof. exact rename_copies. Qed.
Print Assumptions C41_copies.

Example C41_copies_nontrivial :
  find_node [B "m"; B "t.mp3"] (snd (snd (rename_args (B "/") ex_tp (fun _ => None) (mkRopts [] false false)
    (fun _ => []) [B "/m/a.mp3"] ex_fs))) = Some (File [1]).
Proof. vm_compute. reflexivity. Qed.

(** A dry run does not touch the file system. *)
Theorem C41_dry_run : forall cwd tp broken o entries args, ro_dry o = true -> forall fs,
  let r := rename_args cwd tp broken o entries args fs in
  fst r = [] /\ snd (snd r) = fs.
Proof. exact rename_dry. Qed.
Print Assumptions C41_dry_run.

Example C41_dry_run_nontrivial : ro_dry (mkRopts [] true true) = true.
Proof. reflexivity. Qed.

(** A file that is renamed has its content under the new name, which was free; the
    old one is gone exactly if --rename is given; nothing else changes. *)
Theorem C41_renamed : forall cwd tp broken o p fs b out,
  find_node (resolve cwd p) fs = Some (File b) -> destination tp o fs p = Ok out ->
  ro_dry o = false -> squeezed p <> squeezed out -> fst (snd (rename_file cwd tp broken o p fs)) = Ok tt ->
  let fs' := snd (snd (rename_file cwd tp broken o p fs)) in
  find_node (resolve cwd out) fs = None /\
  find_node (resolve cwd out) fs' = Some (File b) /\
  find_node (resolve cwd p) fs' = (if ro_rename o then None else Some (File b)) /\
  forall j, j <> resolve cwd p -> j <> resolve cwd out -> find_node j fs' = find_node j fs.
Proof. intros cwd tp broken o p fs b out F D R E. exact (rename_file_done cwd tp broken o p fs b out F D R (path_eqb_other _ _ E)). Qed.
Print Assumptions C41_renamed.

Example C41_renamed_nontrivial :
  destination ex_tp (mkRopts [] false true) ex_fs (B "/m/a.mp3") = Ok (B "/m/t.mp3") /\
  squeezed (B "/m/a.mp3") <> squeezed (B "/m/t.mp3") /\
  fst (snd (rename_file (B "/") ex_tp (fun _ => None) (mkRopts [] false true) (B "/m/a.mp3") ex_fs)) = Ok tt.
Proof. split; [reflexivity|]. split; [discriminate|vm_compute; reflexivity]. Qed.

(** A file whose name is already the one the template makes stays where it is, also
    if it was given with slashes repeated. *)
Theorem C41_same_name : forall cwd tp broken o p fs out,
  destination tp o fs p = Ok out -> squeezed p = squeezed out ->
  rename_file cwd tp broken o p fs = ([], (Ok tt, fs)).
Proof. exact rename_here. Qed.
Print Assumptions C41_same_name.
Example C41_same_name_nontrivial :
  destination (fun _ _ => Ok (B "c.mp3")) (mkRopts [] false true) ex_fs (B "/m///c.mp3") = Ok (B "/m/c.mp3") /\
  squeezed (B "/m///c.mp3") = squeezed (B "/m/c.mp3").
Proof. repeat split. Qed.

(** A name that is taken is refused (and the rest of the batch with it). *)
Theorem C41_taken : forall cwd tp broken o p fs out n,
  destination tp o fs p = Ok out -> ro_dry o = false -> squeezed p <> squeezed out ->
  find_node (resolve cwd out) fs = Some n ->
  rename_file cwd tp broken o p fs = ([], (Throw FsError, fs)).
Proof. intros cwd tp broken o p fs out n D R E. exact (rename_file_taken cwd tp broken o p fs out n D R (path_eqb_other _ _ E)). Qed.
Print Assumptions C41_taken.

Example C41_taken_nontrivial :
  destination ex_tp (mkRopts [] false true) ex_fs (B "/m/c.mp3") = Ok (B "/m/a.mp3") /\
  find_node (resolve (B "/") (B "/m/a.mp3")) ex_fs = Some (File [1]).
Proof. repeat split; vm_compute; reflexivity. Qed.

(** Nothing changes but the names of the files given or found with the ending
    ".mp3", and the new names these get. *)
Theorem C41_only : forall cwd tp broken o entries args fs,
  let r := rename_args cwd tp broken o entries args fs in
  Forall (fun s => forall j, find_node j s <> find_node j fs ->
    exists p, chosen entries args p /\
      (ro_rename o = true /\ j = resolve cwd p \/ exists s0 out, destination tp o s0 p = Ok out /\ j = resolve cwd out))
    (snd (snd r) :: fst r).
Proof. exact rename_only. Qed.
Print Assumptions C41_only.
Example C41_only_nontrivial :
  find_node [B "m"; B "t.mp3"] (hd [] (fst ex_run)) <> find_node [B "m"; B "t.mp3"] ex_fs /\
  rename_args (B "/") ex_tp (fun _ => None) (mkRopts [] false true) (fun _ => [B "/m/a.mp3x"; B "/m"]) [B "/m"]
    (([B "m"; B "a.mp3x"], File [1]) :: ex_fs) = ([], (Ok tt, ([B "m"; B "a.mp3x"], File [1]) :: ex_fs)).
Proof. split; [discriminate|vm_compute; reflexivity]. Qed.

(** The new name is in the directory of the old one, or in that given by --output. *)
Theorem C41_place : forall cwd tp o fs p n m, cwd <> [] -> ends_in_name p n -> plain_name n -> plain_name m -> tp fs p = Ok m ->
  exists out k, destination tp o fs p = Ok out /\ resolve cwd p = k ++ [n] /\
    resolve cwd out = (match ro_output o with [] => k | d => resolve cwd d end) ++ [m].
Proof. exact place. Qed.
Print Assumptions C41_place.
Example C41_place_nontrivial : ends_in_name (B "/m/a.mp3") (B "a.mp3") /\ ex_tp ex_fs (B "/m/a.mp3") = Ok (B "t.mp3") /\
  exists out, destination ex_tp (mkRopts (B "../x") false true) ex_fs (B "/m/a.mp3") = Ok out /\ resolve (B "/y/z") out = [B "y"; B "x"; B "t.mp3"].
Proof.
  split; [right; exists (B "/m"); split; [reflexivity|right; discriminate]|]. split; [reflexivity|].
  eexists. split; reflexivity.
Qed.

(** An argument that names nothing ends the run with an error: those before it have
    been dealt with, those after it are not looked at. *)
Theorem C41_missing : forall cwd tp broken o entries before p after fs t s,
  rename_args cwd tp broken o entries before fs = (t, (Ok tt, s)) ->
  resolve cwd p <> [] -> find_node (resolve cwd p) s = None ->
  rename_args cwd tp broken o entries (before ++ p :: after) fs = (t, (Throw InvalidArgument, s)).
Proof. intros cwd tp broken o entries. exact (rename_up_to cwd tp broken o entries). Qed.
Print Assumptions C41_missing.
Example C41_missing_nontrivial :
  let r := rename_args (B "/") ex_tp (fun _ => None) (mkRopts [] false true) (fun _ => []) [B "/m/a.mp3"] ex_fs in
  fst (snd r) = Ok tt /\ find_node (resolve (B "/") (B "/m/a.mp3")) (snd (snd r)) = None.
Proof. split; vm_compute; reflexivity. Qed.
