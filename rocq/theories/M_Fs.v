(** * Model: paths and the file system (what scribbu uses of <filesystem>).

    Nothing here models scribbu's own code: this is how the library calls it
    makes are represented.  Simplifications: no symbolic links, no permissions,
    one process; a file has exactly one name. *)
From Verif Require Import Base.

(** ** Paths are byte strings; '/' is 47, '.' is 46. *)

(** The part after the last slash, and what stands before it. *)
Fixpoint until_slash (r : bytes) : bytes :=
  match r with [] => [] | c :: r' => if c =? 47 then [] else c :: until_slash r' end.
Fixpoint strip_slashes (r : bytes) : bytes :=
  match r with [] => [] | c :: r' => if c =? 47 then strip_slashes r' else r end.

(** [path::filename]. *)
Definition filename (p : bytes) : bytes := rev (until_slash (rev p)).
(** [path::parent_path]. *)
Definition parent_path (p : bytes) : bytes :=
  let d := skipn (List.length (until_slash (rev p))) (rev p) in
  match d, strip_slashes d with
  | [], _ => []
  | _, [] => [47]
  | _, d' => rev d'
  end.

(** [operator/] with a relative right-hand side. *)
Definition join (d n : bytes) : bytes :=
  match rev d with
  | c :: _ => if c =? 47 then d ++ n else d ++ [47] ++ n
  | [] => n
  end.

(** [absolute]. *)
Definition absolute (cwd p : bytes) : bytes :=
  match p with
  | c :: _ => if c =? 47 then p else join cwd p
  | [] => join cwd p
  end.

(** [path::extension] and [path::stem] of a file name: from the last dot on,
    unless that is the first character. *)
Fixpoint last_dot (r : bytes) : option (bytes * bytes) :=
  match r with
  | [] => None
  | c :: r' =>
      if c =? 46 then Some ([46], r')
      else match last_dot r' with Some (e, s) => Some (c :: e, s) | None => None end
  end.
Definition split_ext (name : bytes) : bytes * bytes :=
  if bytes_eqb name [46] || bytes_eqb name [46; 46] then (name, [])
  else match last_dot (rev name) with
       | Some (e, (_ :: _) as s) => (rev s, rev e)
       | _ => (name, [])
       end.
Definition stem (p : bytes) : bytes := fst (split_ext (filename p)).
Definition extension (p : bytes) : bytes := snd (split_ext (filename p)).

(** ** Which file a path denotes: its components, "." and ".." worked out. *)
Definition key := list bytes.

Fixpoint components (acc : bytes) (p : bytes) : list bytes :=
  match p with
  | [] => [rev acc]
  | c :: r => if c =? 47 then rev acc :: components [] r else components (c :: acc) r
  end.
Definition walk (stack : list bytes) (c : bytes) : list bytes :=
  match c with
  | [] => stack
  | [46] => stack
  | [46; 46] => tl stack
  | _ => c :: stack
  end.
Definition resolve_abs (p : bytes) : key := rev (fold_left walk (components [] p) []).
Definition resolve (cwd p : bytes) : key := resolve_abs (absolute cwd p).

(** ** The file system *)
Inductive node := File (content : bytes) | Dir.
Definition fsys := list (key * node).

Fixpoint key_eqb (x y : key) : bool :=
  match x, y with
  | [], [] => true
  | a :: x', b :: y' => bytes_eqb a b && key_eqb x' y'
  | _, _ => false
  end.

Fixpoint find_node (k : key) (fs : fsys) : option node :=
  match fs with
  | [] => None
  | (k', n) :: r => if key_eqb k k' then Some n else find_node k r
  end.
Definition del_node (k : key) (fs : fsys) : fsys :=
  filter (fun e => negb (key_eqb k (fst e))) fs.
Definition set_node (k : key) (n : node) (fs : fsys) : fsys := (k, n) :: del_node k fs.

(** What [directory_iterator] yields for the directory [dir]: the entries'
    paths, in no particular order (theorems range over every list [fs]). *)
Fixpoint entry_of (d k : key) : option bytes :=
  match d, k with
  | [], [n] => Some n
  | a :: d', b :: k' => if bytes_eqb a b then entry_of d' k' else None
  | _, _ => None
  end.
Definition directory_entries (fs : fsys) (dir : bytes) : list bytes :=
  fold_right (fun e l => match entry_of (resolve_abs dir) (fst e) with
                         | Some n => join dir n :: l
                         | None => l
                         end) [] fs.

(** ** Operations on the file system, with the states they pass through

    An operation takes the file system to an outcome and the file system it
    leaves, and lists every file system state it passes through, each of which a
    crash of the process may leave behind. *)
Definition FS (A : Type) := fsys -> list fsys * (outcome A * fsys).

Definition fret {A} (a : A) : FS A := fun fs => ([], (Ok a, fs)).
Definition fthrow {A} (e : exn) : FS A := fun fs => ([], (Throw e, fs)).
Definition flift {A} (x : outcome A) : FS A := fun fs => ([], (x, fs)).
Definition fbind {A B} (x : FS A) (f : A -> FS B) : FS B := fun fs =>
  match x fs with
  | (l, (Ok a, fs1)) => let '(l', r) := f a fs1 in (l ++ l', r)
  | (l, (Throw e, fs1)) => (l, (Throw e, fs1))
  | (l, (UB u, fs1)) => (l, (UB u, fs1))
  | (l, (NonTerm, fs1)) => (l, (NonTerm, fs1))
  end.
Notation "'run' p <- x ;; k" := (fbind x (fun p => k))
  (at level 61, p pattern, x at next level, right associativity).

(** [try { x } catch (...) { h }] where [h] says what to do with the exception. *)
Definition fcatch {A} (x : FS A) (h : exn -> FS A) : FS A := fun fs =>
  match x fs with
  | (l, (Throw e, fs1)) => let '(l', r) := h e fs1 in (l ++ l', r)
  | r => r
  end.

(** One atomic change. *)
Definition change (f : fsys -> fsys) : FS unit := fun fs => ([f fs], (Ok tt, f fs)).

Definition lookup (k : key) : FS (option node) := fun fs => ([], (Ok (find_node k fs), fs)).

(** Appending to a file: a crash may leave any part of it. *)
Definition append_states (k : key) (base data : bytes) (fs : fsys) : list fsys :=
  map (fun i => set_node k (File (base ++ firstn i data)) fs) (seq 0 (S (List.length data))).
Definition append (k : key) (data : bytes) : FS unit := fun fs =>
  let base := match find_node k fs with Some (File b) => b | _ => [] end in
  (append_states k base data fs, (Ok tt, set_node k (File (base ++ data)) fs)).

(** [remove]: a file, or a directory without entries. *)
Definition has_entries (fs : fsys) (k : key) : bool :=
  existsb (fun e => match entry_of k (fst e) with Some _ => true | None => false end) fs.
Definition fremove (k : key) : FS unit := fun fs =>
  match find_node k fs with
  | Some Dir => if has_entries fs k then fthrow FsError fs else change (del_node k) fs
  | _ => change (del_node k) fs
  end.

(** [copy]/[copy_file] of a regular file without options: an error if the target
    exists.  [fail]: the copy breaks off, with an error, after that many bytes. *)
Definition fcopy (from to : key) (fail : option nat) : FS unit := fun fs =>
  match find_node from fs with
  | Some (File b) =>
      match find_node to fs with
      | Some _ => fthrow FsError fs
      | None =>
          match fail with
          | None => (append_states to [] b fs, (Ok tt, set_node to (File b) fs))
          | Some n => (append_states to [] (firstn n b) fs,
                       (Throw FsError, set_node to (File (firstn n b)) fs))
          end
      end
  | _ => fthrow FsError fs
  end.

(** [rename] of a regular file: atomic; an existing file of that name is replaced. *)
Definition frename (from to : key) : FS unit := fun fs =>
  match find_node from fs with
  | Some n => change (fun fs => set_node to n (del_node from fs)) fs
  | None => fthrow FsError fs
  end.
