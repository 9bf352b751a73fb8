(** * Model: how the interpreter is set up when scribbu starts (scribbu/scheme.cc). *)
From Verif Require Import Base M_Charset M_Lang M_Scheme.
#[local] Open Scope N_scope.

(** What is changed of the interpreter: the values of [*version*] (module
    [(system repl common)]) and of [%load-path]; [None] if there is no such
    variable. *)
Record interp := mkInterp { in_version : option scm; in_path : option scm }.

(** How a procedure ends, and the interpreter it leaves. *)
Definition GI := interp -> gres unit * interp.
Definition gi_then (x y : GI) : GI := fun s =>
  match x s with (GOk _, s') => y s' | r => r end.

(** scheme.cc:798-832 [customize_welcome].  [banner] is the text on line 823.
    (Simplified: it is UTF-8, like what is converted from the locale.) *)
Definition customize_welcome (G : guile) (banner : bytes) : GI := fun s =>
  match in_version s with
  | None => (GOk tt, s)
  | Some v =>
      match (let! t := to_locale G v in from_stringn G (banner ++ t)) with
      | GOk w => (GOk tt, mkInterp (Some w) (in_path s))
      | GRaise e => (GRaise e, s)
      | GThrow e => (GThrow e, s)
      | GUB u => (GUB u, s)
      | GNonTerm => (GNonTerm, s)
      end
  end.

(** scheme.cc:863-871: the loop over the directories. *)
Fixpoint look_for (G : guile) (site : bytes) (l : list scm) : gres bool :=
  match l with
  | [] => GOk false
  | x :: r =>
      let! p := to_locale G x in
      if bytes_eqb (c_str p) (c_str site) then GOk true else look_for G site r
  end.

(** scheme.cc:846-879 [customize_load_path]. *)
Definition site_dir (datadir : bytes) : bytes := datadir ++ B "/guile/site".
Definition new_path (G : guile) (datadir : bytes) (v : scm) : gres scm :=
  match v with
  | SPair _ _ =>
      let! l := to_list v in
      let! found := look_for G (site_dir datadir) l in
      if found then GOk v
      else let! s := from_locale G (site_dir datadir) in GOk (SPair s v)
  | _ => GOk v
  end.
Definition customize_load_path (G : guile) (datadir : bytes) : GI := fun s =>
  match in_path s with
  | None => (GOk tt, s)
  | Some v =>
      match new_path G datadir v with
      | GOk w => (GOk tt, mkInterp (in_version s) (Some w))
      | GRaise e => (GRaise e, s)
      | GThrow e => (GThrow e, s)
      | GUB u => (GUB u, s)
      | GNonTerm => (GNonTerm, s)
      end
  end.

(** scheme.cc:883-892 [initialize_guile]. *)
Definition initialize_guile (G : guile) (banner datadir : bytes) : GI :=
  gi_then (customize_welcome G banner) (customize_load_path G datadir).
