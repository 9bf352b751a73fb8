(** * Proofs: the report, m3u and split commands by their words. *)
From Verif Require Import Base M_Ints M_Stream M_Id3v1 M_Payload M_Frame M_Tag22 M_Tag23 M_Tag24 M_Charset M_Encodings M_TextId M_Lookup M_Mp3 M_Track M_Read M_Fs L_Fs
  M_Tagset M_Process M_Dirent M_Popm M_Cmds M_Xtag M_Options S_Options L_Options M_Split S_Split L_Split M_Csv M_Report M_Tbt M_Rename L_Rename M_M3u M_Dump M_JsonDump M_CsvDump
  M_Outputs L_Outputs M_Naming M_Main S_Main L_Main M_Po S_Po L_Po L_Po2 L_Po3 M_Program S_Program L_Program.
#[local] Open Scope N_scope.

Section Report.
  Context (z : zlib) (passes : nat) (md5 : bytes -> bytes) (w : world) (blind : rfile -> outcome unit) (cwd : bytes) (below : bytes -> list bytes) (vm : report_vm).
  Context (P : key -> Prop).
  Definition elsewhere (o : option key) : Prop := match o with Some k => ~ P k | None => True end.
  Lemma visit_file_keeps out p : elsewhere out -> keeps P (visit_file z passes md5 w blind cwd vm out p).
  Proof.
    intros NP. apply (keeps_here P _ (fun fs => match find_node (resolve cwd p) fs with
      | Some (File data) =>
          match out with
          | Some k => run _ <- append k (fst (report_file (style_of (report_format vm)) z passes md5 w (rv_v1enc vm) (rv_no_dir vm) (rv_comments vm) (file_of cwd p data)));;
                      flift (snd (report_file (style_of (report_format vm)) z passes md5 w (rv_v1enc vm) (rv_no_dir vm) (rv_comments vm) (file_of cwd p data)))
          | None => flift (fst (snd (visit_file z passes md5 w blind cwd vm None p fs)))
          end
      | _ => fret false end)).
    - intros fs. unfold visit_file. destruct (find_node _ _) as [[data|]|]; [|reflexivity..]. destruct out as [k|].
      + destruct (report_file _ _ _ _ _ _ _ _) as (s & o). reflexivity.
      + destruct (report_read z passes md5 data) as [(([(rev & t)|] & tr) & [v1|])|x|u|]; [| | | |reflexivity..]; try reflexivity; destruct (blind _); reflexivity.
    - intros fs. destruct (find_node _ _) as [[data|]|]; [|apply keeps_ret..]. destruct out as [k|]; [|apply keeps_lift].
      apply keeps_bind; [now apply keeps_append|]. intros _. apply keeps_lift.
  Qed.
  Lemma visit_entries_keeps out l : elsewhere out -> keeps P (visit_entries z passes md5 w blind cwd vm out l).
  Proof.
    intros NP. induction l as [|p r IH]; [apply keeps_ret|].
    apply (keeps_here P _ (fun fs => if is_regular cwd fs p && ends_in_mp3 p
      then run b <- visit_file z passes md5 w blind cwd vm out p;; run c <- visit_entries z passes md5 w blind cwd vm out r;; fret (count b c)
      else visit_entries z passes md5 w blind cwd vm out r)).
    - intros fs. cbn [visit_entries]. destruct (_ && _); reflexivity.
    - intros fs. destruct (_ && _); [|exact IH]. apply keeps_bind; [now apply visit_file_keeps|]. intros b. apply keeps_bind; [exact IH|]. intros c. apply keeps_ret.
  Qed.
  Lemma visit_args_keeps out args : elsewhere out -> keeps P (visit_args z passes md5 w blind cwd below vm out args).
  Proof.
    intros NP. induction args as [|p r IH]; [apply keeps_ret|]. cbn [visit_args]. apply keeps_bind.
    - apply (keeps_here P _ (fun fs => if is_dir fs (resolve cwd p) then visit_entries z passes md5 w blind cwd vm out (below p) else
        match find_node (resolve cwd p) fs with None => fthrow InvalidArgument | Some _ => run b <- visit_file z passes md5 w blind cwd vm out p;; fret (count b (0, 0)) end)).
      + intros fs. unfold visit_arg. destruct (is_dir _ _); [reflexivity|]. destruct (find_node _ _); reflexivity.
      + intros fs. destruct (is_dir _ _); [now apply visit_entries_keeps|]. destruct (find_node _ _); [|apply keeps_throw]. apply keeps_bind; [now apply visit_file_keeps|]. intros b. apply keeps_ret.
    - intros c. apply keeps_bind; [exact IH|]. intros d. apply keeps_ret.
  Qed.
  Lemma open_report_keeps out : ~ P (resolve cwd out) -> forall fs,
    (forall s, In s (snd (snd (open_report cwd vm out fs)) :: fst (open_report cwd vm out fs)) -> forall k, P k -> find_node k s = find_node k fs) /\
    forall o, fst (snd (open_report cwd vm out fs)) = Ok o -> elsewhere o.
  Proof.
    intros NP fs. pose proof (keeps_ofstream P cwd out NP fs) as K. unfold open_report.
    assert (V : forall k, fst (snd (open_ofstream cwd out fs)) = Ok k -> k = resolve cwd out).
    { intros k. unfold open_ofstream. cbv zeta. destruct (_ || _); [discriminate|]. cbn. congruence. }
    destruct (open_ofstream cwd out fs) as (l & [k|x|u|] & fs1) eqn:E; cbn [fst snd] in *; try (split; [exact K|intros o X; injection X as <-; exact Logic.I]).
    pose proof (V k eq_refl) as ->. split.
    - pose proof (keeps_append P (resolve cwd out) (header_row (negb (rv_tsv vm)) (st_sep (style_of (report_format vm))) (rv_no_dir vm) (rv_comments vm)) NP fs1) as Q.
      intros s I k Pk. pose proof (K fs1 (or_introl eq_refl) k Pk) as E1.
      unfold fbind in I. set (A := append (resolve cwd out) _) in *. destruct (A fs1) as (l2 & [a|x|u|] & fs2) eqn:EA; [|unfold A, append in EA; discriminate EA..].
      cbn [fst snd fret] in *. destruct I as [<-|I].
      + rewrite (Q fs2 (or_introl eq_refl) k Pk). exact E1.
      + apply in_app_or in I. destruct I as [I|I]; [exact (K s (or_intror I) k Pk)|]. rewrite app_nil_r in I. rewrite (Q s (or_intror I) k Pk). exact E1.
    - intros o X. cbn in X. injection X as <-. exact NP.
  Qed.
  Lemma report_spared out fs : rv_output vm = Some out -> ~ P (resolve cwd out) ->
    spared P ((run r <- report_main z passes md5 w blind cwd below vm;; fret (fst r)) fs) fs.
  Proof.
    intros EO NP. assert (K : forall s, In s (snd (snd (report_main z passes md5 w blind cwd below vm fs)) :: fst (report_main z passes md5 w blind cwd below vm fs)) ->
      forall k, P k -> find_node k s = find_node k fs).
    { unfold report_main. rewrite EO. destruct (rv_args vm) as [|a l] eqn:EA; [intros s [<-|[]] k _; reflexivity|].
      destruct (open_report_keeps out NP fs) as (K1 & Q). set (args := a :: l).
      assert (K2 : forall s, In s (snd (snd ((run k <- open_report cwd vm out;; visit_args z passes md5 w blind cwd below vm k args) fs)) ::
                                  fst ((run k <- open_report cwd vm out;; visit_args z passes md5 w blind cwd below vm k args) fs)) -> forall k, P k -> find_node k s = find_node k fs).
      { intros s I k Pk. unfold fbind in I. destruct (open_report cwd vm out fs) as (l1 & [o|x|u|] & fs1); cbn [fst snd] in *; try exact (K1 s I k Pk).
        pose proof (K1 fs1 (or_introl eq_refl) k Pk) as E1. pose proof (visit_args_keeps o args (Q o eq_refl) fs1) as K3.
        destruct (visit_args z passes md5 w blind cwd below vm o args fs1) as (l2 & r2 & fs2). cbn [fst snd] in *. destruct I as [<-|I].
        - rewrite (K3 fs2 (or_introl eq_refl) k Pk). exact E1.
        - apply in_app_or in I. destruct I as [I|I]; [exact (K1 s (or_intror I) k Pk)|]. rewrite (K3 s (or_intror I) k Pk). exact E1. }
      match goal with |- context [match ?t with _ => _ end] => destruct t as (l0 & [c|x|u|] & fs1) end; exact K2. }
    intros s I k Pk. apply (K s); [|exact Pk]. unfold fbind in I. destruct (report_main z passes md5 w blind cwd below vm fs) as (l0 & [r|x|u|] & fs1); cbn [fst snd fret] in *; try exact I.
    rewrite app_nil_r in I. exact I.
  Qed.
End Report.

(** ** Options that can be given once *)
Lemma once_path ls o : fold_parse KPath None ls = proceed o -> ls = [] \/ exists ws, ls = [ws].
Proof.
  destruct ls as [|a [|c r]]; [now left|right; now exists a|]. intros E. exfalso. cbn [fold_parse] in E. apply hbind_inv in E. destruct E as (v & _ & E).
  apply hbind_inv in E. destruct E as (v2 & E & _). cbn [parse_value first hbind] in E. discriminate E.
Qed.
Lemma in_on_line cl d ws : In (d_long d, ws) cl -> In ws (on_line cl d).
Proof. intros I. unfold on_line. apply in_map_iff. exists (d_long d, ws). split; [reflexivity|]. apply filter_In. split; [exact I|apply bytes_refl]. Qed.
Lemma path_value T tokens cl vars m d p : fit T -> line T tokens cl -> enough_room T cl -> In d (t_all T) -> d_kind d = KPath -> In (d_long d, [p]) cl -> p <> [] -> no_blank p -> hd 0 p <> 34 ->
  gather T tokens vars = Handled (Ok (inr m)) -> value_of m (d_long d) = Some (VText p).
Proof.
  intros Ft L R I K J NE NB Q G. destruct (line_meant T tokens cl (f_all _ Ft) L R) as (os & P & E & _).
  destruct (gather_line T tokens vars m os Ft G P) as (F & _ & V). destruct (F d I) as (o & Fo). rewrite K in Fo.
  assert (On : on_line (named os) d = [[p]]).
  { unfold named in *. rewrite E in *. pose proof (in_on_line cl d [p] J) as X. destruct (once_path _ _ Fo) as [Z|(ws & Z)]; rewrite Z in X; [destruct X|]. destruct X as [->|[]]. exact Z. }
  apply (V d I). apply yield_line; [rewrite On; discriminate|]. rewrite On, K. apply reads_fold; [|discriminate]. now constructor.
Qed.
Lemma no_value T tokens cl vars m d : fit T -> line T tokens cl -> enough_room T cl -> In d (t_all T) -> ~ In (d_long d) (map fst cl) -> t_env T = [] -> d_default d = None ->
  gather T tokens vars = Handled (Ok (inr m)) -> value_of m (d_long d) = None.
Proof.
  intros Ft L R I NI EE D G. destruct (line_meant T tokens cl (f_all _ Ft) L R) as (os & P & E & _). destruct (gather_line T tokens vars m os Ft G P) as (_ & _ & V).
  apply (V d I). apply yield_none; [|unfold in_env; rewrite EE|exact D].
  - unfold named. rewrite E. unfold on_line. replace (filter _ cl) with (@nil (bytes * list bytes)); [reflexivity|]. symmetry. clear -NI. induction cl as [|(k, ws) r IH]; [reflexivity|].
    cbn [filter fst]. cbn [map fst In] in NI. destruct (bytes_eqb_spec k (d_long d)) as [->|]; [exfalso; apply NI; now left|]. apply IH. intros X. apply NI. now right.
  - clear. induction vars as [|a r IH]; [reflexivity|exact IH].
Qed.
