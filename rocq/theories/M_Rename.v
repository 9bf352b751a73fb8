(** * Model: the rename command (src/rename.cc). *)
From Verif Require Import Base M_Fs M_Split.

(** The elements of a path, as [path::operator==] compares them: repeated slashes
    count once, a trailing slash as an empty element. *)
Definition is_absolute (p : bytes) : bool := match p with c :: _ => c =? 47 | [] => false end.
Definition elements (p : bytes) : bool * list bytes :=
  let names := filter (fun c => negb (bytes_eqb c [])) (components [] p) in
  (is_absolute p, match names with [] => [] | _ => if last p 0 =? 47 then names ++ [[]] else names end).
Definition path_eqb (p q : bytes) : bool :=
  Bool.eqb (fst (elements p)) (fst (elements q)) && key_eqb (snd (elements p)) (snd (elements q)).

(** [path::operator/=]. *)
Definition append_path (d n : bytes) : bytes := if is_absolute n then n else join d n.

(** The options: --output, --dry-run, --rename.  (--verbose only prints.) *)
Record ropts := mkRopts { ro_output : bytes; ro_dry : bool; ro_rename : bool }.

(** [fs::copy_file(from, to)]: besides what [fcopy] does, the target needs a
    directory to stand in and a name. *)
Definition copy_file (cwd from to : bytes) (fail : option nat) : FS unit := fun fs =>
  let k := resolve cwd to in
  if negb (is_dir fs (removelast k)) || is_dir fs k || (last to 47 =? 47) then fthrow FsError fs
  else fcopy (resolve cwd from) k fail fs.

Section Rename.
  (** What the template makes of a file (any function of the file system and the
      path), and where, if at all, the copy of a file breaks off. *)
  Context (cwd : bytes) (tp : fsys -> bytes -> outcome bytes) (broken : bytes -> option nat) (o : ropts).

  (** src/rename.cc:120-121: the new path. *)
  Definition destination (fs : fsys) (p : bytes) : outcome bytes :=
    let* n := tp fs p in
    Ok (append_path (match ro_output o with [] => parent_path p | d => d end) n).

  (** src/rename.cc:113-137 [renamer::process_file]. *)
  Definition rename_file (p : bytes) : FS unit := fun fs =>
    fcatch
      (run out <- flift (destination fs p);;
       if negb (ro_dry o) && negb (path_eqb p out) then
         run _ <- copy_file cwd p out (broken p);;
         if ro_rename o then fremove (resolve cwd p) else fret tt
       else fret tt)
      (fun x => match x with TemplateError => fret tt | _ => fthrow x end) fs.

  Definition is_regular (fs : fsys) (p : bytes) : bool :=
    match find_node (resolve cwd p) fs with Some (File _) => true | _ => false end.

  (** [boost::regex_match(s, ".*\\.mp3")]. *)
  Definition ends_in_mp3 (p : bytes) : bool := (4 <=? len p) && bytes_eqb (dropN (len p - 4) p) (B ".mp3").

  (** src/rename.cc:139-154 [renamer::process_directory]: [entries] is what the
      iterator yields, in whatever order, whether or not it notices the files
      that appear and vanish under way. *)
  Fixpoint rename_entries (entries : list bytes) : FS unit :=
    match entries with
    | [] => fret tt
    | p :: r => fun fs =>
        (run _ <- (if is_regular fs p && ends_in_mp3 p then rename_file p else fret tt);;
         rename_entries r) fs
    end.

  (** src/rename.cc:99-111 [renamer::operator()]. *)
  Definition rename_arg (entries : bytes -> list bytes) (p : bytes) : FS unit := fun fs =>
    if is_dir fs (resolve cwd p) then rename_entries (entries p) fs
    else match find_node (resolve cwd p) fs with
         | None => fthrow InvalidArgument fs
         | Some _ => rename_file p fs
         end.

  (** src/rename.cc:289: [for_each] over the arguments. *)
  Fixpoint rename_args (entries : bytes -> list bytes) (args : list bytes) : FS unit :=
    match args with
    | [] => fret tt
    | p :: r => run _ <- rename_arg entries p;; rename_args entries r
    end.
End Rename.
