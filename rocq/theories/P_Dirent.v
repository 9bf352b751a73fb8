(** * Properties: going through files and directories (C47). *)
From Verif Require Import Base M_Fs S_Tagset M_Split M_Rename M_Dirent S_Dirent L_Dirent L_Fs.
From Coq Require Import Sorting.Permutation.

(** Whatever the directory tree, the arguments, and the order in which directories
    list their entries: what is done is to call the function on a certain list of
    paths, in order; for each argument in turn, these are the regular files at or
    below it, each once, and nothing else.  (For functions that do not create or
    remove files: whether those are noticed under way is unspecified.) *)
Theorem C47_visits : forall cwd entries fs args, cwd <> [] -> tree fs ->
  (forall p, is_dir fs (resolve cwd p) = true -> lists_entries cwd fs p (entries p)) -> Forall (fun p => p <> []) args ->
  exists ls, Forall2 (files_below cwd fs) args ls /\
    forall visit, (forall p s, same_shape fs s -> same_shape fs (snd (snd (visit p s)))) ->
      process_dirent_args cwd visit entries args fs = each visit (concat ls) fs.
Proof. intros cwd entries fs args Hc HT HE. exact (args_walk cwd entries fs Hc HT HE args). Qed.
Print Assumptions C47_visits.

(** Two levels of directories; one file and one directory are named twice. *)
Definition ex_fs : fsys :=
  [([B "m"], Dir); ([B "m"; B "a"], File []); ([B "m"; B "d"], Dir); ([B "m"; B "d"; B "b"], File []); ([B "c"], File [])].
Definition ex_entries (p : bytes) : list bytes := map (join p) (rev (names_in ex_fs (resolve (B "/") p))).
Definition ex_mark (p : bytes) : FS unit := append (resolve (B "/") p) [1].
Example C47_visits_nontrivial :
  (forall p, is_dir ex_fs (resolve (B "/") p) = true -> lists_entries (B "/") ex_fs p (ex_entries p)) /\
  let s := snd (snd (process_dirent_args (B "/") ex_mark ex_entries [B "m"; B "/c"; B "x"; B "m/d"; B "c"] ex_fs)) in
  map (fun e => (fst e, snd e)) s =
  [([B "c"], File [1; 1]); ([B "m"; B "d"; B "b"], File [1; 1]); ([B "m"; B "a"], File [1]); ([B "m"], Dir); ([B "m"; B "d"], Dir)].
Proof.
  split; [|vm_compute; reflexivity]. intros p _. unfold lists_entries, ex_entries. apply Permutation_map, Permutation_sym, Permutation_rev.
Qed.
Example C47_tree_nontrivial : tree ex_fs.
Proof.
  split; [|split; [|split]].
  - cbn. repeat (constructor; [cbn; intuition discriminate|]). constructor.
  - cbn. intuition discriminate.
  - cbn [map fst ex_fs]. repeat (constructor; [repeat (constructor; [repeat split; try discriminate; cbn; intuition discriminate|]); constructor|]).
    constructor.
  - intros d n H. assert (G : Forall (fun k => is_dir ex_fs (removelast k) = true) (map fst ex_fs)) by (repeat constructor).
    rewrite Forall_forall in G. apply G in H. now rewrite removelast_last in H.
Qed.
