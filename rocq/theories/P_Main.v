(** * Properties: the arguments of the main program (C88). *)
From Coq Require Import Sorting.Permutation Sorting.Sorted.
From Verif Require Import Base M_Main S_Main L_Main.
#[local] Open Scope N_scope.

(** ** C88.  Every command line is dealt with in one way, and nothing is lost on
    the way to a sub-command or to Guile.

    Any arguments consist of leading options and an ending. *)
Theorem C88_covers args : exists l rs e, args = l ++ words e /\ leading l rs /\ ending_ok e.
Proof. exact (covered args). Qed.
Print Assumptions C88_covers.

(** These say what is to be done; it is decided without a write outside the array
    made for Guile's arguments. *)
Theorem C88_decided {H} (M : registry H) prog l rs e : leading l rs -> ending_ok e ->
  exists a, decide M prog (l ++ words e) = Ok a /\ due (command_names M) prog (l ++ words e) rs e a.
Proof. exact (decided M prog l rs e). Qed.
Print Assumptions C88_decided.

Definition ex_commands : registry (list bytes -> ran) :=
  [ (B "dump", fun l => mkRan 0 (concat l) []); (B "text", fun l => mkRan 1 (concat l) []) ].
Example C88_decided_nontrivial :
  let args := [B "-L"; B "/lib"; B "--listen=37"; B "--info"; B "-h"; B "text"; B "-a"; B "x"] in
  (exists l rs e, args = l ++ words e /\ leading l rs /\ ending_ok e /\ rs = [AskInfo; AskUsage] /\ e = Word (B "text") [B "-a"; B "x"]) /\
  decide ex_commands (B "scribbu") args = Ok ShowUsage /\
  decide ex_commands (B "scribbu") (skipn 5 args) = Ok (Command (B "text") [B "-a"; B "x"]) /\
  decide ex_commands (B "scribbu") [B "-q"; B "--hepl"] = Ok (Misused (B "--hepl")) /\
  decide ex_commands (B "scribbu") [B "-v"; B "-l"] = Ok (Misused (B "-l")) /\
  decide ex_commands (B "scribbu") [B "-q"; B "-s"; B "f"; B "-h"] = Ok (Guile [B "scribbu"; B "-q"; B "-s"; B "f"; B "-h"]).
Proof.
  split; [|vm_compute; auto 9].
  exists [B "-L"; B "/lib"; B "--listen=37"; B "--info"; B "-h"], [AskInfo; AskUsage], (Word (B "text") [B "-a"; B "x"]).
  split; [reflexivity|]. split; [|split; [|auto]].
  - apply lead_value; [cbn; auto|]. apply lead_alone; [right; exists (B "--listen"), (B "=37"); split; [cbn; auto|reflexivity]|].
    apply lead_ask; [cbn; auto 9|]. apply lead_ask; [cbn; auto 9|]. constructor.
  - cbn [ending_ok]. pose proof (kind_spec (B "text")) as K. exact K.
Qed.

(** Nothing goes wrong for any arguments. *)
Theorem C88_total {H} (M : registry H) prog args : exists a, decide M prog args = Ok a.
Proof. exact (decides M prog args). Qed.
Print Assumptions C88_total.
Example C88_total_nontrivial : decide ex_commands (B "scribbu") [[]; [0]; B "-h"] = Ok (Guile [B "scribbu"; []; [0]; B "-h"]).
Proof. reflexivity. Qed.

(** A sub-command gets what follows its name; what comes before it, if
    options of Guile's, makes no difference. *)
Theorem C88_command x (M : registry (list bytes -> ran)) prog l cmd rest f :
  leading l [] -> ~ is_known cmd -> find_command M cmd = Some f -> main x M prog (l ++ cmd :: rest) = Ok (f rest).
Proof. exact (runs x M prog l cmd rest f). Qed.
Print Assumptions C88_command.
Definition ex_outside : outside := mkOut (B " [OPTION...]") (B "scribbu 0.6.23") (fun _ _ => inr (B "no")) (fun l => mkRan 0 (concat l) []) (fun s => s).
Example C88_command_nontrivial :
  leading [B "-q"; B "-e"; B "main"] [] /\ ~ is_known (B "text") /\
  main ex_outside ex_commands (B "scribbu") ([B "-q"; B "-e"; B "main"] ++ B "text" :: [B "a"; B "-h"]) = Ok (mkRan 1 (B "a-h") []).
Proof.
  split; [|split; [exact (kind_spec (B "text"))|reflexivity]].
  apply lead_alone; [left; cbn; auto 12|]. apply lead_value; [cbn; auto 9|]. constructor.
Qed.

(** Guile gets the arguments as they were given, all of them. *)
Theorem C88_guile {H} (M : registry H) prog args g : decide M prog args = Ok (Guile g) -> g = prog :: args.
Proof. exact (guile_all M prog args g). Qed.
Print Assumptions C88_guile.
Example C88_guile_nontrivial :
  decide ex_commands (B "scribbu") [B "-q"; B "-L"; B "-h"; B "my.scm"; B "-v"] = Ok (Guile [B "scribbu"; B "-q"; B "-L"; B "-h"; B "my.scm"; B "-v"]).
Proof. reflexivity. Qed.

(** What is asked for is shown: the version, the usage with a line for each
    sub-command, or what the programs man and info show, where they can be run. *)
Theorem C88_shown x (M : registry (list bytes -> ran)) prog l rs e : leading l rs -> ending_ok e -> (forall o, e <> Valueless o) ->
  (In AskVersion rs -> main x M prog (l ++ words e) = Ok (mkRan 0 (x_version x ++ [10]) [])) /\
  (~ In AskVersion rs -> last_help rs = Some AskUsage ->
   exists out, main x M prog (l ++ words e) = Ok (mkRan 0 out []) /\
     forall s, In s (command_names M) -> exists a b, out = a ++ B "    " ++ s ++ [10] ++ b) /\
  (forall q page, ~ In AskVersion rs -> last_help rs = Some q -> In (q, page) [(AskMan, B "man"); (AskInfo, B "info")] ->
   match x_exec x page (B "scribbu") with
   | inl r => main x M prog (l ++ words e) = Ok r
   | inr _ => exists err, main x M prog (l ++ words e) = Ok (mkRan 1 [] err)
   end).
Proof. exact (shows x M prog l rs e). Qed.
Print Assumptions C88_shown.
Example C88_shown_nontrivial :
  leading [B "-h"; B "--man"; B "-q"] [AskUsage; AskMan] /\ last_help [AskUsage; AskMan] = Some AskMan /\
  main ex_outside ex_commands (B "scribbu") [B "-h"; B "--man"; B "-q"] = Ok (mkRan 1 [] (B "no" ++ [10])).
Proof.
  split; [|split; reflexivity]. apply lead_ask; [cbn; auto 9|]. apply lead_ask; [cbn; auto 9|]. apply lead_alone; [left; cbn; auto 12|]. constructor.
Qed.

(** Misuse is told by the status, but not on standard error alone: the names of
    the sub-commands go to standard output. *)
Theorem C88_misused_refuted x (M : registry (list bytes -> ran)) prog args o : decide M prog args = Ok (Misused o) ->
  exists r, main x M prog args = Ok r /\ r_status r = 2 /\ r_out r = flat_map (fun s => s ++ [10] ++ B "    ") (command_names M).
Proof. exact (misused x M prog args o). Qed.
Print Assumptions C88_misused_refuted.
Example C88_misused_nontrivial_refuted : decide ex_commands (B "scribbu") [B "--hepl"] = Ok (Misused (B "--hepl")) /\
  exists r, main ex_outside ex_commands (B "scribbu") [B "--hepl"] = Ok r /\ r_out r = B "dump" ++ [10] ++ B "    text" ++ [10] ++ B "    ".
Proof. split; [reflexivity|]. eexists. split; reflexivity. Qed.

(** Whatever the order in which the sub-commands register themselves, the same are
    found, and listed in alphabetical order. *)
Theorem C88_registered {H} (l : list (bytes * H)) : NoDup (map fst l) ->
  exists M, (forall l', Permutation l l' -> register_all [] l' = Ok M) /\
            (forall s f, find_command M s = Some f <-> In (s, f) l) /\ (forall s, In s (command_names M) <-> In s (map fst l)) /\
            StronglySorted precedes (command_names M).
Proof. exact (registered l). Qed.
Print Assumptions C88_registered.
(** One registered twice stops the program before it has begun. *)
Theorem C88_registered_twice {H} (l : list (bytes * H)) : ~ NoDup (map fst l) -> register_all [] l = Throw OutOfRange.
Proof. intros N1. exact (register_twice l [] N1 (NoDup_nil _)). Qed.
Print Assumptions C88_registered_twice.
Example C88_registered_nontrivial :
  NoDup (map fst [(B "text", 1); (B "dump", 2); (B "m3u", 3)]) /\
  register_all [] [(B "text", 1); (B "dump", 2); (B "m3u", 3)] = Ok [(B "dump", 2); (B "m3u", 3); (B "text", 1)] /\
  register_all [] [(B "text", 1); (B "dump", 2); (B "text", 3)] = Throw OutOfRange.
Proof.
  split; [|split; reflexivity]. cbn [map fst]. repeat (constructor; [cbn; intros X; repeat destruct X as [X|X]; try discriminate X; exact X|]). constructor.
Qed.

(** A sub-command shows the help asked for by the last of its options that does. *)
Theorem C88_help pre a w b post :
  In w help_words -> (forall t, In t a -> ~ In t help_words) -> (forall ts t, In ts post -> In t ts -> ~ In t help_words) ->
  let r := parsed_help (pre ++ (a ++ w :: b) :: post) HelpNone None in
  (w = B "-h" -> fst r = HelpRegular) /\
  (w = B "--help" \/ w = B "--man" -> r = (HelpVerbose, Some FlavorMan)) /\
  (w = B "--info" -> r = (HelpVerbose, Some FlavorInfo)).
Proof. exact (parsed_last pre a w b post). Qed.
Print Assumptions C88_help.
Theorem C88_no_help l : (forall ts t, In ts l -> In t ts -> ~ In t help_words) -> parsed_help l HelpNone None = (HelpNone, None).
Proof. intros N1. exact (parsed_none l N1 HelpNone None). Qed.
Print Assumptions C88_no_help.
Example C88_help_nontrivial :
  let l := [[B "--help"]; [B "-a"; B "x"]; [B "-h"]; [B "-T"; B "y"]] in
  In (B "-h") help_words /\ l = [[B "--help"]; [B "-a"; B "x"]] ++ ([] ++ B "-h" :: []) :: [[B "-T"; B "y"]] /\
  (forall ts t, In ts [[B "-T"; B "y"]] -> In t ts -> ~ In t help_words) /\ fst (parsed_help l HelpNone None) = HelpRegular.
Proof.
  split; [cbn; auto|]. split; [reflexivity|]. split; [|reflexivity].
  intros ts t [<-|[]] [<-|[<-|[]]] I1; cbn in I1; repeat destruct I1 as [I1|I1]; try discriminate I1; exact I1.
Qed.
