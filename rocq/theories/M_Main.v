(** * Model: the main program (src/scribbu.cc, src/command-utilities.cc). *)
From Verif Require Import Base M_Fs.

(** ** The sub-commands *)

(** [std::string]'s order, by unsigned bytes. *)
Fixpoint before (a b : bytes) : bool :=
  match a, b with
  | _, [] => false
  | [], _ :: _ => true
  | x :: a', y :: b' => if x =? y then before a' b' else x <? y
  end.

(** src/command-utilities.hh:166-171, [std::map] as the list of its entries, in
    order. *)
Definition registry (H : Type) := list (bytes * H).
Fixpoint count_command {H} (M : registry H) (s : bytes) : bool :=
  match M with
  | [] => false
  | (k, _) :: r => bytes_eqb k s || count_command r s
  end.
Fixpoint find_command {H} (M : registry H) (s : bytes) : option H :=
  match M with
  | [] => None
  | (k, h) :: r => if bytes_eqb k s then Some h else find_command r s
  end.
Fixpoint put_command {H} (M : registry H) (s : bytes) (f : H) : registry H :=
  match M with
  | [] => [(s, f)]
  | (k, h) :: r => if before s k then (s, f) :: M
                   else if bytes_eqb k s then (k, f) :: r
                   else (k, h) :: put_command r s f
  end.

(** src/command-utilities.cc:407-414 [register_command]. *)
Definition register {H} (M : registry H) (s : bytes) (f : H) : outcome (registry H) :=
  if count_command M s then Throw OutOfRange else Ok (put_command M s f).
(** The static initialisers, one after the other. *)
Fixpoint register_all {H} (M : registry H) (l : list (bytes * H)) : outcome (registry H) :=
  match l with
  | [] => Ok M
  | (s, f) :: r => let* M' := register M s f in register_all M' r
  end.

(** src/command-utilities.hh:173-185 [get_sub_command_names]. *)
Definition command_names {H} (M : registry H) : list bytes := map fst M.

(** ** The options *)

(** src/command-utilities.hh:66-73. *)
Inductive help_level := HelpNone | HelpRegular | HelpVerbose.
Inductive verbose_flavor := FlavorMan | FlavorInfo.

(** [!strcmp(a, s)] and [!strncmp(p, s, n)], [n] the length of [p]. *)
Definition is (a : string) (s : bytes) : bool := bytes_eqb (B a) s.
Definition begins (p : string) (s : bytes) : bool := bytes_eqb (B p) (takeN (len (B p)) s).

(** src/scribbu.cc:174-178: the options of Guile's followed by a value. *)
Definition takes_value (s : bytes) : bool := is "-L" s || is "-C" s || is "-x" s || is "-l" s || is "-e" s.
(** 193-203: those that stand alone. *)
Definition stands_alone (s : bytes) : bool :=
  begins "--language" s || begins "--listen" s || begins "--use-srfi" s || is "-ds" s || is "--debug" s ||
  is "--no-debug" s || is "--auto-compile" s || is "--fresh-auto-compile" s || is "--no-auto-compile" s ||
  is "-q" s || is "\" s.

(** What [handle_options] returns, with the array of arguments for Guile's use so
    far and what is left of the arguments. *)
Record options := mkOptions { op_version : bool; op_help : help_level; op_flavor : option verbose_flavor;
                              op_gargv : list bytes; op_rest : list bytes }.

(** An element is put at the end of the [n] there are: the array has [room]. *)
Definition put_arg (room : N) (g : list bytes) (s : bytes) : outcome (list bytes) :=
  if len g <? room then Ok (g ++ [s]) else UB OutOfBounds.
Fixpoint put_args (room : N) (g l : list bytes) : outcome (list bytes) :=
  match l with
  | [] => Ok g
  | s :: r => let* g' := put_arg room g s in put_args room g' r
  end.

(** src/scribbu.cc:129-250 [handle_options]; [inr] is [po::required_option]. *)
Fixpoint handle_options (room : N) (argv : list bytes) (o : options) : outcome (options + bytes) :=
  match argv with
  | [] => Ok (inl (mkOptions (op_version o) (op_help o) (op_flavor o) (op_gargv o) []))
  | cmd :: rest =>
      if is "-h" cmd then
        handle_options room rest (mkOptions (op_version o) HelpRegular (op_flavor o) (op_gargv o) [])
      else if is "--help" cmd || is "--man" cmd then
        handle_options room rest (mkOptions (op_version o) HelpVerbose (Some FlavorMan) (op_gargv o) [])
      else if is "--info" cmd then
        handle_options room rest (mkOptions (op_version o) HelpVerbose (Some FlavorInfo) (op_gargv o) [])
      else if is "-v" cmd || is "--version" cmd then
        handle_options room rest (mkOptions true (op_help o) (op_flavor o) (op_gargv o) [])
      else if takes_value cmd then
        let* g := put_arg room (op_gargv o) cmd in
        match rest with
        | [] => Ok (inr cmd)
        | v :: rest' =>
            let* g := put_arg room g v in
            handle_options room rest' (mkOptions (op_version o) (op_help o) (op_flavor o) g [])
        end
      else if stands_alone cmd then
        let* g := put_arg room (op_gargv o) cmd in
        handle_options room rest (mkOptions (op_version o) (op_help o) (op_flavor o) g [])
      else if is "-c" cmd || is "-s" cmd then
        let* g := put_arg room (op_gargv o) cmd in
        match rest with
        | [] => Ok (inr cmd)
        | _ => let* g := put_args room g rest in Ok (inl (mkOptions (op_version o) (op_help o) (op_flavor o) g []))
        end
      else if is "--" cmd then
        let* g := put_args room (op_gargv o) argv in Ok (inl (mkOptions (op_version o) (op_help o) (op_flavor o) g []))
      else Ok (inl (mkOptions (op_version o) (op_help o) (op_flavor o) (op_gargv o) argv))
  end.

(** ** The program *)

(** What [main] decides to do. *)
Inductive action :=
| ShowVersion | ShowMan | ShowInfo | ShowUsage
| Command (name : bytes) (argv : list bytes)
| Guile (argv : list bytes)
| Misused (option : bytes).   (* po::required_option, po::unknown_option *)

(** src/scribbu.cc:383-460: up to the point where it is done.  The array for Guile
    has [argc + 1] places, and a null pointer at the end.  (That there is an
    [argv[0]] is presumed.) *)
Definition decide {H} (M : registry H) (prog : bytes) (argv : list bytes) : outcome action :=
  let room := len (prog :: argv) + 1 in
  let* r := handle_options room argv (mkOptions false HelpNone None [prog] []) in
  match r with
  | inr s => Ok (Misused s)
  | inl o =>
      if op_version o then Ok ShowVersion
      else match op_help o with
           | HelpVerbose => Ok match op_flavor o with Some FlavorMan => ShowMan | _ => ShowInfo end
           | HelpRegular => Ok ShowUsage
           | HelpNone =>
               match op_rest o with
               | cmd :: rest =>
                   if count_command M cmd then Ok (Command cmd rest)
                   else if match cmd with c :: _ => c =? 45 | [] => false end then Ok (Misused cmd)
                   else let* g := put_args room (op_gargv o) (cmd :: rest) in
                        if len g <? room then Ok (Guile g) else UB OutOfBounds
               | [] => if len (op_gargv o) <? room then Ok (Guile (op_gargv o)) else UB OutOfBounds
               end
           end
  end.

(** A process as seen from outside: its status, standard output and error. *)
Record ran := mkRan { r_status : N; r_out : bytes; r_err : bytes }.

(** What is outside of the program: the texts, [execlp] of a program with one
    argument (the text of the exception when it fails), Guile's shell, and
    the text of an exception for an option. *)
Record outside := mkOut { x_usage : bytes; x_version : bytes; x_exec : bytes -> bytes -> ran + bytes;
                          x_guile : list bytes -> ran; x_what : bytes -> bytes }.

(** src/scribbu.cc:252-268 [print_usage]: what goes to the stream given, in two
    parts, and between them what goes to standard output. *)
Definition usage_head (x : outside) (prog : bytes) : bytes :=
  prog ++ x_usage x ++ [10; 10] ++
  B "scribbu sub-commands (run `scribbu <sub-command> -h' for a usage message):" ++ [10; 10] ++ B "    ".
Definition usage_names {H} (M : registry H) : bytes := flat_map (fun s => s ++ [10] ++ B "    ") (command_names M).

(** src/scribbu.cc:405-481: doing it. *)
Definition perform (x : outside) (M : registry (list bytes -> ran)) (prog : bytes) (a : action) : ran :=
  match a with
  | ShowVersion => mkRan 0 (x_version x ++ [10]) []
  | ShowMan => match x_exec x (B "man") (B "scribbu") with inl r => r | inr s => mkRan 1 [] (s ++ [10]) end
  | ShowInfo => match x_exec x (B "info") (B "scribbu") with inl r => r | inr s => mkRan 1 [] (s ++ [10]) end
  | ShowUsage => mkRan 0 (usage_head x prog ++ usage_names M ++ [10]) []
  | Command s argv => match find_command M s with Some f => f argv | None => mkRan 1 [] [] end
  | Guile argv => x_guile x argv
  | Misused s => mkRan 2 (usage_names M) (x_what x s ++ [10] ++ usage_head x prog ++ [10])
  end.

Definition main (x : outside) (M : registry (list bytes -> ran)) (prog : bytes) (argv : list bytes) : outcome ran :=
  let* a := decide M prog argv in Ok (perform x M prog a).

(** ** Help for the sub-commands *)

(** src/command-utilities.cc:66-94 [help_level_for_parsed_opts]; [l] holds the
    original tokens of each option parsed. *)
Fixpoint help_token (l : list bytes) : option (help_level * option verbose_flavor) :=
  match l with
  | [] => None
  | t :: r => if is "-h" t then Some (HelpRegular, None)
              else if is "--help" t || is "--man" t then Some (HelpVerbose, Some FlavorMan)
              else if is "--info" t then Some (HelpVerbose, Some FlavorInfo)
              else help_token r
  end.
Fixpoint parsed_help (l : list (list bytes)) (out : help_level) (flav : option verbose_flavor) : help_level * option verbose_flavor :=
  match l with
  | [] => (out, flav)
  | ts :: r => match help_token ts with
               | None => parsed_help r out flav
               | Some (h, None) => parsed_help r h flav
               | Some (h, Some f) => parsed_help r h (Some f)
               end
  end.
