(** * Specification: the directories in which the interpreter looks for modules. *)
From Verif Require Import Base M_Scheme S_Lang S_Tag.
#[local] Open Scope N_scope.

(** scribbu's own (scheme/Makefile.am:1 installs scribbu.scm in
    [$(prefix)/share/guile/site], which is it by default). *)
Definition site_of (datadir : bytes) : bytes := datadir ++ B "/guile/site".
(** A directory: what it is called in Scheme, and in the encoding of the locale. *)
Definition directory (G : guile) (d : bytes * bytes) : Prop :=
  ~ In 0 (fst d) /\ ~ In 0 (snd d) /\ g_to_locale G (fst d) = Some (snd d).
(** The list of directories. *)
Definition searched (ds : list (bytes * bytes)) : scm := slist (map SStr (map fst ds)).
