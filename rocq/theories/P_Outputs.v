(** * Theorems: the report command and the files (C91). *)
From Verif Require Import Base M_Ints M_Stream M_Id3v1 M_Payload M_Frame M_Tag22 M_Tag23 M_Tag24 M_Charset M_Lookup M_Mp3 M_Track M_Read
  M_Fs M_Tagset M_Process M_Cmds M_Csv M_Report M_Split M_Rename M_Outputs S_Csv S_Report S_Outputs L_Fs L_M3u3 L_Outputs S_Tag23 P_Cmds P_Report.
#[local] Open Scope N_scope.

Definition ex_tree : fsys := [([B "m"], Dir); ([B "m"; B "a.mp3"], File ex_file); ([B "m"; B "notes.txt"], File (B "x")); ([B "one"], File (B "music"))].
Definition ex_below (p : bytes) : list bytes := map (join p) [B "a.mp3"; B "notes.txt"].
Definition ex_options (out : bytes) (args : list bytes) : report_vm := mkReportVm 1 (Some out) false E_UTF_8 false false false args.
Definition ex_blind (f : rfile) : outcome unit := Ok tt.
Definition ex_report (vm : report_vm) (fs : fsys) := report_main no_zlib 3 ex_md5 ex_world ex_blind (B "/") ex_below vm fs.

(** The output can be opened and is not among the files to be reported on: it then
    holds the report on the arguments as they were, nothing else has changed, the
    status and the summary tell how it went; and whenever the run is cut short, the
    output holds a beginning of the report and nothing else has changed. *)
Theorem C91_report_partial : forall z passes md5 w blind cwd below vm fs out,
  rv_output vm = Some out -> rv_args vm <> [] -> can_open cwd fs out -> apart cwd below out (rv_args vm) ->
  let R := report (report_format vm) z passes md5 w (rv_v1enc vm) (rv_no_dir vm) (rv_comments vm) (map (seen cwd fs below) (rv_args vm)) in
  exists st r fs', report_main z passes md5 w blind cwd below vm fs = (st, (r, fs')) /\
    ends_with (rv_no_summary vm) (snd R) r /\
    find_node (resolve cwd out) fs' = Some (File (fst R)) /\ all_but (resolve cwd out) fs fs' /\
    Forall (fun s => all_but (resolve cwd out) fs s /\ begun (resolve cwd out) (fst R) s) st.
Proof.
  intros z passes md5 w blind cwd below vm fs out EO EA CO AP R.
  destruct (report_run z passes md5 w blind cwd below vm fs out EO EA CO AP) as (st & r & E & W & P). exists st, r. eexists. split; [exact E|].
  split; [exact W|]. split; [apply find_set_same|]. split; [intros k' H; apply find_set_other; exact H|]. apply prefixes_states. exact P.
Qed.
Print Assumptions C91_report_partial.
Example C91_report_nontrivial : can_open (B "/") ex_tree (B "m/out.csv") /\ apart (B "/") ex_below (B "m/out.csv") [B "m"; B "one"] /\
  seen (B "/") ex_tree ex_below (B "m") = RDir [mkRf (B "/m") (B "a.mp3") ex_file; mkRf (B "/m") (B "notes.txt") (B "x")] /\
  fst (snd (ex_report (ex_options (B "m/out.csv") [B "m"; B "one"]) ex_tree)) = Ok (0, B "Processed 2 files successfully; 0 had errors." ++ [10]) /\
  fst (snd (ex_report (ex_options (B "m/out.csv") [B "m"; B "none"]) ex_tree)) = Ok (1, []).
Proof.
  split; [vm_compute; repeat split; discriminate|]. split; [|split; [|split]].
  - intros p [<-|[<-|[]]]; (split; [vm_compute; discriminate|]); intros q Q _; cbn [ex_below map] in Q; destruct Q as [<-|[<-|[]]]; vm_compute; discriminate.
  - vm_compute. reflexivity.
  - vm_compute. reflexivity.
  - vm_compute. reflexivity.
Qed.

(** Exactly without an output or without arguments the status is that of wrong
    usage, and then nothing has happened. *)
Theorem C91_usage : forall z passes md5 w blind cwd below vm fs st n text fs',
  report_main z passes md5 w blind cwd below vm fs = (st, (Ok (n, text), fs')) ->
  (n = 2 <-> rv_output vm = None \/ rv_args vm = []) /\ (n = 2 -> st = [] /\ text = [] /\ fs' = fs).
Proof. exact report_usage. Qed.
Print Assumptions C91_usage.
Example C91_usage_nontrivial : ex_report (ex_options (B "out") []) ex_tree = ([], (Ok (2, []), ex_tree)) /\
  fst (snd (ex_report (ex_options (B "out") [B "one"]) ex_tree)) = Ok (0, B "Processed 1 files successfully; 0 had errors." ++ [10]).
Proof. split; vm_compute; reflexivity. Qed.

(** False: that what is in the files to be reported on comes to no harm.  Whatever
    the file given as output held, it plays no role and is gone, with the same
    status and summary; also when it is one of the arguments. *)
Theorem C91_overwritten_refuted : forall z passes md5 w blind cwd below vm fs out,
  rv_output vm = Some out -> rv_args vm <> [] -> can_open cwd fs out ->
  exists r fs', forall d, snd (report_main z passes md5 w blind cwd below vm (set_node (resolve cwd out) (File d) fs)) = (r, fs').
Proof.
  intros z passes md5 w blind cwd below vm fs out EO EA CO.
  destruct (snd (report_main z passes md5 w blind cwd below vm (set_node (resolve cwd out) (File []) fs))) as (r, fs') eqn:E.
  exists r, fs'. intros d. rewrite <- E. apply (report_forgets z passes md5 w blind cwd below vm fs out d []); assumption.
Qed.
Print Assumptions C91_overwritten_refuted.
Example C91_overwritten_nontrivial_refuted : can_open (B "/") ex_tree (B "m/a.mp3") /\ find_node [B "m"; B "a.mp3"] ex_tree = Some (File ex_file) /\
  fst (snd (ex_report (ex_options (B "m/a.mp3") [B "m/a.mp3"]) ex_tree)) = Ok (0, B "Processed 1 files successfully; 0 had errors." ++ [10]).
Proof. split; [vm_compute; repeat split; discriminate|]. split; vm_compute; reflexivity. Qed.

(** False: that a report has been written when the status is that of success.  If
    the output cannot be opened, and none of the files has a tag, nothing is
    written and the same is told as if it had been. *)
Theorem C91_unwritten_refuted : forall z passes md5 w blind cwd below vm fs out,
  rv_output vm = Some out -> rv_args vm <> [] -> cannot_open cwd fs out ->
  Forall (fun p => resolve cwd p <> [] /\ exists data tr, find_node (resolve cwd p) fs = Some (File data) /\ report_read z passes md5 data = Ok (None, tr, None)) (rv_args vm) ->
  report_main z passes md5 w blind cwd below vm fs =
  ([], (Ok (0, if rv_no_summary vm then [] else told_at_end (len (rv_args vm)) 0), fs)).
Proof. exact report_unopened. Qed.
Print Assumptions C91_unwritten_refuted.
Example C91_unwritten_nontrivial_refuted : cannot_open (B "/") ex_tree (B "there/out.csv") /\ resolve (B "/") (B "one") <> [] /\
  (exists data tr, find_node (resolve (B "/") (B "one")) ex_tree = Some (File data) /\ report_read no_zlib 3 ex_md5 data = Ok (None, tr, None)) /\
  told_at_end (len [B "one"]) 0 = B "Processed 1 files successfully; 0 had errors." ++ [10].
Proof.
  split; [right; left; vm_compute; reflexivity|]. split; [vm_compute; discriminate|]. split; [|vm_compute; reflexivity].
  exists (B "music"). eexists. split; vm_compute; reflexivity.
Qed.

(** False: that --ascii-delimited is refused without --tsv, with which alone it may
    be used; it is taken as if it were not there. *)
Theorem C91_ascii_refuted : forall z passes md5 w blind cwd below b vm fs, rv_tsv vm = false ->
  report_main z passes md5 w blind cwd below (with_ascii b vm) fs = report_main z passes md5 w blind cwd below vm fs.
Proof. exact report_ascii. Qed.
Print Assumptions C91_ascii_refuted.
Example C91_ascii_nontrivial_refuted : exists s, fst (snd (ex_report (with_ascii true (ex_options (B "out") [B "one"])) ex_tree)) = Ok (0, s) /\
  rv_ascii (with_ascii true (ex_options (B "out") [B "one"])) = true /\ rv_tsv (with_ascii true (ex_options (B "out") [B "one"])) = false.
Proof. eexists. split; [vm_compute; reflexivity|]. split; reflexivity. Qed.
