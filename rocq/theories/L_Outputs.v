(** * Lemmas: the report command and the files. *)
From Verif Require Import Base M_Ints M_Stream M_Id3v1 M_Payload M_Frame M_Tag22 M_Tag23 M_Tag24 M_Charset M_Lookup M_Mp3 M_Track M_Read
  M_Fs M_Tagset M_Process M_Cmds M_Csv M_Report M_Split M_Rename M_Dirent M_Options M_Outputs S_Outputs L_Fs L_M3u3.
#[local] Open Scope N_scope.

(** ** Names *)
Lemma until_slash_app a b : until_slash (a ++ 47 :: b) = until_slash a.
Proof. induction a as [|c a IH]; [reflexivity|]. cbn [List.app until_slash]. destruct (c =? 47); [reflexivity|]. rewrite IH. reflexivity. Qed.
Lemma filename_absolute cwd p : filename (absolute cwd p) = filename p.
Proof.
  assert (J : filename (join cwd p) = filename p).
  { unfold join, filename. destruct (rev cwd) as [|c r] eqn:R; [reflexivity|]. destruct (N.eqb_spec c 47) as [->|NE].
    - rewrite rev_app_distr, R, until_slash_app. reflexivity.
    - change (cwd ++ [47] ++ p) with (cwd ++ ([47] ++ p)). rewrite !rev_app_distr. cbn [rev List.app]. rewrite <- app_assoc. cbn [List.app].
      rewrite until_slash_app. reflexivity. }
  unfold absolute. destruct p as [|c p]; [exact J|]. destruct (c =? 47); [reflexivity|exact J].
Qed.

Lemma dropN_rev (l : bytes) n : dropN (len l - n) l = rev (takeN n (rev l)).
Proof.
  rewrite dropN_skipn, takeN_firstn, firstn_rev, rev_involutive. f_equal. unfold len. lia.
Qed.
Lemma until_prefix l : exists t, l = until_slash l ++ t.
Proof. induction l as [|c l (t & E)]; [exists []; reflexivity|]. cbn [until_slash]. destruct (c =? 47); [exists (c :: l); reflexivity|]. exists t. cbn [List.app]. rewrite <- E. reflexivity. Qed.
Definition tail_of : bytes := [51; 112; 109; 46].
Lemma ends_take l : bytes_eqb (rev (takeN 4 l)) (B ".mp3") = true <-> exists t, l = tail_of ++ t.
Proof.
  change (B ".mp3") with (rev tail_of). destruct (bytes_eqb_spec (rev (takeN 4 l)) (rev tail_of)) as [E|E]; split; [intros _|reflexivity|discriminate|].
  - exists (dropN 4 l). apply (f_equal (@rev N)) in E. rewrite !rev_involutive in E. rewrite <- E. symmetry. apply takeN_dropN.
  - intros (t & ->). exfalso. apply E. destruct t; reflexivity.
Qed.
Lemma tail_until l : (exists t, l = tail_of ++ t) <-> exists t, until_slash l = tail_of ++ t.
Proof.
  split.
  - intros (t & ->). exists (until_slash t). reflexivity.
  - intros (t & E). destruct (until_prefix l) as (u & ->). rewrite E. exists (t ++ u). rewrite app_assoc. reflexivity.
Qed.
Lemma mp3_names cwd p data : is_mp3 (file_of cwd p data) = ends_in_mp3 p.
Proof.
  apply Bool.eq_iff_eq_true. unfold is_mp3, ends_in_mp3, file_of. cbn [rf_name]. rewrite filename_absolute, Bool.andb_true_iff, !dropN_rev, !ends_take.
  unfold filename. rewrite rev_involutive, <- tail_until. split; [|tauto]. intros (t & E). split; [|eauto]. apply N.leb_le.
  unfold len. rewrite <- rev_length, E, app_length. cbn [length tail_of]. lia.
Qed.

(** ** Writing to one file *)
Definition pbind {A C} (r : bytes * outcome A) (g : A -> bytes * outcome C) : bytes * outcome C :=
  match snd r with
  | Ok a => (fst r ++ fst (g a), snd (g a))
  | Throw e => (fst r, Throw e)
  | UB u => (fst r, UB u)
  | NonTerm => (fst r, NonTerm)
  end.

Section Goes.
  Context (k : key) (fs : fsys).

  Definition goes {A} (m : FS A) (r : bytes * outcome A) : Prop := forall c, exists st,
    m (set_node k (File c) fs) = (st, (snd r, set_node k (File (c ++ fst r)) fs)) /\ prefixes k fs c (fst r) st.

  Lemma goes_ret {A} (x : outcome A) : goes (flift x) ([], x).
  Proof. intros c. exists []. cbn [fst snd]. rewrite app_nil_r. split; [reflexivity|constructor]. Qed.

  Lemma prefixes_app c s t st st' : prefixes k fs c s st -> prefixes k fs (c ++ s) t st' -> prefixes k fs c (s ++ t) (st ++ st').
  Proof.
    intros P Q. apply Forall_app. split.
    - eapply Forall_impl; [|exact P]. cbv beta. intros q (i & ->). exists (Nat.min i (length s)). do 2 f_equal.
      rewrite firstn_app. replace (Nat.min i (length s) - length s)%nat with O by lia. rewrite app_nil_r.
      destruct (Nat.le_ge_cases i (length s)) as [L|L]; [rewrite Nat.min_l by exact L; reflexivity|].
      rewrite Nat.min_r by exact L. rewrite !firstn_all2 by lia. reflexivity.
    - eapply Forall_impl; [|exact Q]. cbv beta. intros q (i & ->). exists (length s + i)%nat. do 2 f_equal.
      rewrite <- app_assoc. f_equal. rewrite firstn_app_2. reflexivity.
  Qed.

  Lemma goes_append s : goes (append k s) (s, Ok tt).
  Proof.
    intros c. rewrite append_set. eexists. split; [reflexivity|]. apply Forall_forall. intros q Q. apply in_map_iff in Q as (i & <- & Q). exists i. reflexivity.
  Qed.

  Lemma goes_bind {A C} (m : FS A) (f : A -> FS C) r g : goes m r -> (forall a, snd r = Ok a -> goes (f a) (g a)) -> goes (fbind m f) (pbind r g).
  Proof.
    intros M F c. destruct (M c) as (st & E & P). unfold fbind. rewrite E. unfold pbind. destruct (snd r) as [a|e|u|] eqn:R; [|exists st; split; [reflexivity|exact P]..].
    destruct (F a eq_refl (c ++ fst r)) as (st' & E' & P'). rewrite E'. exists (st ++ st'). cbn [fst snd]. split; [rewrite app_assoc; reflexivity|].
    apply prefixes_app; assumption.
  Qed.
  Lemma goes_eq {A} (m : FS A) r r' : goes m r -> fst r = fst r' -> snd r = snd r' -> goes m r'.
  Proof. destruct r, r'. cbn [fst snd]. intros H -> ->. exact H. Qed.
End Goes.

Section Visits.
  Context (z : zlib) (passes : nat) (md5 : bytes -> bytes) (w : world) (blind : rfile -> outcome unit)
          (cwd : bytes) (below : bytes -> list bytes) (vm : report_vm) (k : key) (fs : fsys).

  Notation one := (report_file (style_of (report_format vm)) z passes md5 w (rv_v1enc vm) (rv_no_dir vm) (rv_comments vm)).
  Notation goes := (goes k fs).

  Lemma file_goes p data : resolve cwd p <> k -> find_node (resolve cwd p) fs = Some (File data) ->
    goes (visit_file z passes md5 w blind cwd vm (Some k) p) (one (file_of cwd p data)).
  Proof.
    intros NK FD c. unfold visit_file. rewrite find_set_other by exact NK. rewrite FD.
    assert (G := goes_bind k fs (append k (fst (one (file_of cwd p data)))) (fun _ => flift (snd (one (file_of cwd p data)))) _ (fun _ => ([], snd (one (file_of cwd p data))))
      (goes_append k fs _) (fun _ _ => goes_ret k fs _) c).
    destruct (one (file_of cwd p data)) as (s, o). unfold pbind in G. cbn [fst snd] in G |- *. rewrite app_nil_r in G. exact G.
  Qed.

  Lemma is_regular_set c p : resolve cwd p <> k -> is_regular cwd (set_node k (File c) fs) p = is_regular cwd fs p.
  Proof. intros H. unfold is_regular. rewrite find_set_other by exact H. reflexivity. Qed.
  Lemma is_dir_set c p : p <> k -> is_dir (set_node k (File c) fs) p = is_dir fs p.
  Proof. intros H. unfold is_dir. destruct p; [reflexivity|]. rewrite find_set_other by exact H. reflexivity. Qed.

  Lemma entries_go l : (forall q, In q l -> ends_in_mp3 q = true -> resolve cwd q <> k) ->
    goes (visit_entries z passes md5 w blind cwd vm (Some k) l) (report_files one (filter is_mp3 (flat_map (files_at cwd fs) l))).
  Proof.
    induction l as [|q l IH]; intros NK; [exact (goes_ret k fs (Ok (0, 0)))|].
    specialize (IH (fun x H => NK x (or_intror H))). intros c. cbn [visit_entries flat_map]. rewrite filter_app.
    destruct (ends_in_mp3 q) eqn:EM.
    - assert (NQ := NK q (or_introl eq_refl) EM). rewrite is_regular_set by exact NQ. unfold is_regular.
      assert (FA : files_at cwd fs q = match find_node (resolve cwd q) fs with Some (File d) => [file_of cwd q d] | _ => [] end) by reflexivity.
      rewrite FA. clear FA. destruct (find_node (resolve cwd q) fs) as [[data|]|] eqn:FD; [|exact (IH c)..].
      cbn [andb filter]. rewrite mp3_names, EM. cbn [List.app report_files].
      set (R := report_files one (filter is_mp3 (flat_map (files_at cwd fs) l))) in *.
      assert (G := goes_bind k fs _ (fun b => run c <- visit_entries z passes md5 w blind cwd vm (Some k) l;; fret (count b c)) _
                     (fun b => pbind R (fun c => ([], Ok (count b c)))) (file_goes q data NQ FD)
                     (fun b _ => goes_bind k fs _ _ _ _ IH (fun c _ => goes_ret k fs (Ok (count b c)))) c).
      destruct (one (file_of cwd q data)) as (s, o). unfold pbind in G. cbn [fst snd] in G. destruct o as [b|e|u|]; [|exact G..].
      destruct R as (s', o'). cbn [fst snd] in G. destruct o' as [(ok, err)|e|u|]; cbn [fst snd bind] in G |- *; try exact G.
      rewrite app_nil_r in G. unfold count in G. cbn [fst snd] in G. exact G.
    - rewrite Bool.andb_false_r. assert (Z : filter is_mp3 (files_at cwd fs q) = []).
      { unfold files_at. destruct (find_node (resolve cwd q) fs) as [[data|]|]; [|reflexivity..]. cbn [filter]. rewrite mp3_names, EM. reflexivity. }
      rewrite Z. exact (IH c).
  Qed.

  Lemma arg_goes p : resolve cwd p <> k -> (forall q, In q (below p) -> ends_in_mp3 q = true -> resolve cwd q <> k) ->
    goes (visit_arg z passes md5 w blind cwd below vm (Some k) p)
      (match seen cwd fs below p with RMissing => ([], Throw InvalidArgument) | a => report_files one (arg_files a) end).
  Proof.
    intros NP NB c. unfold visit_arg, seen. rewrite is_dir_set by exact NP. destruct (is_dir fs (resolve cwd p)) eqn:D; [exact (entries_go (below p) NB c)|].
    rewrite find_set_other by exact NP. destruct (find_node (resolve cwd p) fs) as [[data|]|] eqn:FD.
    - cbn [arg_files report_files].
      assert (G := goes_bind k fs _ (fun b => fret (count b (0, 0))) _ (fun b => ([], Ok (count b (0, 0)))) (file_goes p data NP FD)
                     (fun b _ => goes_ret k fs (Ok (count b (0, 0)))) c).
      destruct (one (file_of cwd p data)) as (s, o). unfold pbind in G. cbn [fst snd] in G. destruct o as [b|e|u|]; [|exact G..].
      cbn [bind]. unfold count in G. cbn [fst snd] in G. exact G.
    - exfalso. revert D FD. unfold is_dir. destruct (resolve cwd p); [discriminate|]. intros D FD. rewrite FD in D. discriminate D.
    - exact (goes_ret k fs (Throw InvalidArgument) c).
  Qed.

  Lemma args_go args : (forall p, In p args -> resolve cwd p <> k /\ forall q, In q (below p) -> ends_in_mp3 q = true -> resolve cwd q <> k) ->
    goes (visit_args z passes md5 w blind cwd below vm (Some k) args) (report_args one (map (seen cwd fs below) args)).
  Proof.
    induction args as [|p args IH]; intros AP; [exact (goes_ret k fs (Ok (0, 0)))|].
    specialize (IH (fun x H => AP x (or_intror H))). destruct (AP p (or_introl eq_refl)) as (NP & NB). intros c. cbn [visit_args map report_args].
    assert (G := goes_bind k fs _ (fun c => run d <- visit_args z passes md5 w blind cwd below vm (Some k) args;; fret (add c d)) _
                   (fun c => pbind (report_args one (map (seen cwd fs below) args)) (fun d => ([], Ok (add c d)))) (arg_goes p NP NB)
                   (fun c _ => goes_bind k fs _ _ _ _ IH (fun d _ => goes_ret k fs (Ok (add c d)))) c).
    destruct (seen cwd fs below p) as [|f|l]; [exact G|..]; unfold pbind in G;
      destruct (report_files one _) as (s, o); cbn [fst snd] in G; (destruct o as [(ok, err)|e|u|]; [|exact G..]);
      destruct (report_args one (map (seen cwd fs below) args)) as (s', o'); cbn [fst snd] in G; destruct o' as [(ok', err')|e|u|]; cbn [fst snd bind] in G |- *; try exact G;
      rewrite app_nil_r in G; exact G.
  Qed.
End Visits.

(** ** The whole run *)
Lemma report_args_eq k z passes md5 w v1enc no_dir ncomm args :
  report k z passes md5 w v1enc no_dir ncomm args =
  (header_row (match k with Csv => true | Tdf _ => false end) (st_sep (style_of k)) no_dir ncomm ++
     fst (report_args (report_file (style_of k) z passes md5 w v1enc no_dir ncomm) args),
   snd (report_args (report_file (style_of k) z passes md5 w v1enc no_dir ncomm) args)).
Proof. unfold report. cbv zeta. destruct (report_args _ args). reflexivity. Qed.

Lemma opened_report cwd vm out fs : can_open cwd fs out ->
  let h := header_row (negb (rv_tsv vm)) (st_sep (style_of (report_format vm))) (rv_no_dir vm) (rv_comments vm) in
  exists st, open_report cwd vm out fs = (st, (Ok (Some (resolve cwd out)), set_node (resolve cwd out) (File h) fs)) /\
    prefixes (resolve cwd out) fs [] h st.
Proof.
  intros (D & PD & L) h. unfold open_report, open_ofstream. cbv zeta. rewrite D, PD. apply N.eqb_neq in L. rewrite L. cbn [negb orb].
  unfold fbind, change, fret. rewrite append_set. cbn [fst snd List.app]. eexists. split; [reflexivity|]. unfold prefixes.
  constructor; [exists O; reflexivity|]. rewrite app_nil_r. apply Forall_forall. intros q Q. apply in_map_iff in Q as (i & <- & Q). exists i. reflexivity.
Qed.

Lemma prefixes_states k fs t st : prefixes k fs [] t st -> Forall (fun s => all_but k fs s /\ begun k t s) st.
Proof.
  intros P. eapply Forall_impl; [|exact P]. cbv beta. intros q (i & ->). cbn [List.app]. split; [intros k' H; apply find_set_other; exact H|].
  exists i. apply find_set_same.
Qed.

Lemma report_run z passes md5 w blind cwd below vm fs out : rv_output vm = Some out -> rv_args vm <> [] ->
  can_open cwd fs out -> apart cwd below out (rv_args vm) ->
  let R := report (report_format vm) z passes md5 w (rv_v1enc vm) (rv_no_dir vm) (rv_comments vm) (map (seen cwd fs below) (rv_args vm)) in
  exists st r, report_main z passes md5 w blind cwd below vm fs = (st, (r, set_node (resolve cwd out) (File (fst R)) fs)) /\
    ends_with (rv_no_summary vm) (snd R) r /\ prefixes (resolve cwd out) fs [] (fst R) st.
Proof.
  intros EO EA CO AP R. unfold R. rewrite report_args_eq. clear R. unfold report_main. rewrite EO. destruct (rv_args vm) as [|a args] eqn:VA; [congruence|].
  destruct (opened_report cwd vm out fs CO) as (st & E & P). unfold fbind at 1. rewrite E.
  set (h := header_row (negb (rv_tsv vm)) (st_sep (style_of (report_format vm))) (rv_no_dir vm) (rv_comments vm)) in *.
  destruct (args_go z passes md5 w blind cwd below vm (resolve cwd out) fs (a :: args) AP h) as (st' & E' & P'). rewrite E'. clear E E'.
  assert (H : header_row (match report_format vm with Csv => true | Tdf _ => false end) (st_sep (style_of (report_format vm))) (rv_no_dir vm) (rv_comments vm) = h).
  { unfold h, report_format. destruct (rv_tsv vm); reflexivity. }
  rewrite H. clear H.
  destruct (report_args _ (map (seen cwd fs below) (a :: args))) as (s, o). cbn [fst snd] in *.
  assert (PP := prefixes_app _ _ _ _ _ _ _ P P'). destruct o as [(ok, err)|e|u|]; eexists; eexists; (split; [reflexivity|]); (split; [|exact PP]).
  - unfold ends_with, finish, summary, told_at_end. cbn [fst snd]. reflexivity.
  - reflexivity.
  - reflexivity.
  - reflexivity.
Qed.

Lemma report_usage z passes md5 w blind cwd below vm fs st n text fs' :
  report_main z passes md5 w blind cwd below vm fs = (st, (Ok (n, text), fs')) ->
  (n = 2 <-> rv_output vm = None \/ rv_args vm = []) /\ (n = 2 -> st = [] /\ text = [] /\ fs' = fs).
Proof.
  unfold report_main. intros H. destruct (rv_output vm) as [out|]; [|inversion H; subst; split; [split; auto|auto]].
  destruct (rv_args vm) as [|a args]; [inversion H; subst; split; [split; auto|auto]|].
  assert (NE : n = 2 -> False).
  { destruct (fbind _ _ fs) as (l, ([c|e|u|], fs1)); [|inversion H; subst; discriminate|discriminate H|discriminate H].
    inversion H; subst. destruct (snd c =? 0); discriminate. }
  split; [split; [intros Q; destruct (NE Q)|intros [Q|Q]; discriminate Q]|intros Q; destruct (NE Q)].
Qed.

Lemma opened_set cwd vm out fs d : can_open cwd fs out ->
  let h := header_row (negb (rv_tsv vm)) (st_sep (style_of (report_format vm))) (rv_no_dir vm) (rv_comments vm) in
  snd (open_report cwd vm out (set_node (resolve cwd out) (File d) fs)) = (Ok (Some (resolve cwd out)), set_node (resolve cwd out) (File h) fs).
Proof.
  intros (D & PD & L) h. unfold open_report, open_ofstream. cbv zeta.
  assert (K : resolve cwd out <> []) by (intros E; rewrite E in D; discriminate D).
  assert (RL : removelast (resolve cwd out) <> resolve cwd out).
  { intros E. rewrite E in PD. congruence. }
  assert (D1 : is_dir (set_node (resolve cwd out) (File d) fs) (resolve cwd out) = false).
  { unfold is_dir. destruct (resolve cwd out) eqn:R; [congruence|]. rewrite find_set_same. reflexivity. }
  rewrite D1, is_dir_set by exact RL. rewrite PD. apply N.eqb_neq in L. rewrite L. cbn [negb orb].
  unfold fbind, change, fret. rewrite set_set, append_set. cbn [fst snd List.app]. reflexivity.
Qed.
Lemma report_forgets z passes md5 w blind cwd below vm fs out d d' : rv_output vm = Some out -> rv_args vm <> [] -> can_open cwd fs out ->
  snd (report_main z passes md5 w blind cwd below vm (set_node (resolve cwd out) (File d) fs)) =
  snd (report_main z passes md5 w blind cwd below vm (set_node (resolve cwd out) (File d') fs)).
Proof.
  intros EO EA CO. unfold report_main. rewrite EO. destruct (rv_args vm) as [|a args] eqn:VA; [congruence|].
  assert (E := opened_set cwd vm out fs d CO). assert (E' := opened_set cwd vm out fs d' CO). cbv zeta in E, E'.
  unfold fbind at 1 2. destruct (open_report cwd vm out (set_node (resolve cwd out) (File d) fs)) as (l, q), (open_report cwd vm out (set_node (resolve cwd out) (File d') fs)) as (l', q').
  cbn [snd] in E, E'. rewrite E, E'. destruct (visit_args _ _ _ _ _ _ _ _ _ _ _) as (l2, ([c|e|u|], fs2)); reflexivity.
Qed.

Lemma unopened cwd vm out fs : cannot_open cwd fs out -> open_report cwd vm out fs = ([], (Ok None, fs)).
Proof.
  intros H. unfold open_report, open_ofstream. cbv zeta.
  assert (E : is_dir fs (resolve cwd out) || negb (is_dir fs (removelast (resolve cwd out))) || (last out 47 =? 47) = true).
  { destruct H as [-> | [-> | ->]]; cbn [negb]; rewrite ?Bool.orb_true_r; reflexivity. }
  rewrite E. reflexivity.
Qed.
Lemma unopened_args z passes md5 w blind cwd below vm fs args :
  Forall (fun p => exists data tr, find_node (resolve cwd p) fs = Some (File data) /\ report_read z passes md5 data = Ok (None, tr, None)) args ->
  (forall p, In p args -> resolve cwd p <> []) ->
  visit_args z passes md5 w blind cwd below vm None args fs = ([], (Ok (len args, 0), fs)).
Proof.
  induction 1 as [|p args (data & tr & FD & RR) F IH]; intros NR; [reflexivity|]. cbn [visit_args].
  assert (NP := NR p (or_introl eq_refl)).
  assert (V : visit_arg z passes md5 w blind cwd below vm None p fs = ([], (Ok (1, 0), fs))).
  { unfold visit_arg. assert (D : is_dir fs (resolve cwd p) = false) by (unfold is_dir; destruct (resolve cwd p); [congruence|rewrite FD; reflexivity]).
    rewrite D, FD. unfold fbind, visit_file. rewrite FD, RR. reflexivity. }
  unfold fbind. rewrite V, IH by (intros q Q; apply NR; right; exact Q). unfold fret, add. cbn [fst snd List.app].
  replace (1 + len args) with (len (p :: args)) by (unfold len; cbn [length]; lia). reflexivity.
Qed.
Lemma report_unopened z passes md5 w blind cwd below vm fs out : rv_output vm = Some out -> rv_args vm <> [] -> cannot_open cwd fs out ->
  Forall (fun p => resolve cwd p <> [] /\ exists data tr, find_node (resolve cwd p) fs = Some (File data) /\ report_read z passes md5 data = Ok (None, tr, None)) (rv_args vm) ->
  report_main z passes md5 w blind cwd below vm fs =
  ([], (Ok (0, if rv_no_summary vm then [] else told_at_end (len (rv_args vm)) 0), fs)).
Proof.
  intros EO EA CO F. unfold report_main. rewrite EO. assert (V := unopened_args z passes md5 w blind cwd below vm fs (rv_args vm)).
  rewrite Forall_forall in F. rewrite Forall_forall in V. specialize (V (fun p H => proj2 (F p H)) (fun p H => proj1 (F p H))).
  unfold fbind. rewrite (unopened cwd vm out fs CO), V. destruct (rv_args vm) as [|a args]; [congruence|]. reflexivity.
Qed.

Lemma ascii_file z passes md5 w blind cwd b vm out p fs : rv_tsv vm = false ->
  visit_file z passes md5 w blind cwd (with_ascii b vm) out p fs = visit_file z passes md5 w blind cwd vm out p fs.
Proof. intros H. unfold visit_file, report_format. cbn [with_ascii rv_tsv rv_v1enc rv_no_dir rv_comments]. rewrite H. reflexivity. Qed.
Lemma fbind_ext {A C} (m m' : FS A) (f f' : A -> FS C) fs : m fs = m' fs -> (forall a s, f a s = f' a s) -> fbind m f fs = fbind m' f' fs.
Proof. intros M F. unfold fbind. rewrite M. destruct (m' fs) as (l, ([a|e|u|], s)); [rewrite F|..]; reflexivity. Qed.
Lemma ascii_entries z passes md5 w blind cwd b vm out l : rv_tsv vm = false -> forall fs,
  visit_entries z passes md5 w blind cwd (with_ascii b vm) out l fs = visit_entries z passes md5 w blind cwd vm out l fs.
Proof.
  intros H. induction l as [|p l IH]; intros fs; [reflexivity|]. cbn [visit_entries]. destruct (is_regular cwd fs p && ends_in_mp3 p); [|apply IH].
  apply fbind_ext; [apply ascii_file; exact H|]. intros x s. apply fbind_ext; [apply IH|reflexivity].
Qed.
Lemma ascii_args z passes md5 w blind cwd below b vm out args : rv_tsv vm = false -> forall fs,
  visit_args z passes md5 w blind cwd below (with_ascii b vm) out args fs = visit_args z passes md5 w blind cwd below vm out args fs.
Proof.
  intros H. induction args as [|p l IH]; intros fs; [reflexivity|]. cbn [visit_args]. apply fbind_ext.
  - unfold visit_arg. destruct (is_dir fs (resolve cwd p)); [apply ascii_entries; exact H|]. destruct (find_node (resolve cwd p) fs); [|reflexivity].
    apply fbind_ext; [apply ascii_file; exact H|reflexivity].
  - intros x s. apply fbind_ext; [apply IH|reflexivity].
Qed.
Lemma report_ascii z passes md5 w blind cwd below b vm fs : rv_tsv vm = false ->
  report_main z passes md5 w blind cwd below (with_ascii b vm) fs = report_main z passes md5 w blind cwd below vm fs.
Proof.
  intros H. unfold report_main. change (rv_output (with_ascii b vm)) with (rv_output vm). change (rv_args (with_ascii b vm)) with (rv_args vm).
  change (finish (with_ascii b vm)) with (finish vm).
  destruct (rv_output vm) as [out|]; [|reflexivity]. destruct (rv_args vm) as [|a args]; [reflexivity|].
  rewrite (fbind_ext (open_report cwd (with_ascii b vm) out) (open_report cwd vm out)
             (fun k => visit_args z passes md5 w blind cwd below (with_ascii b vm) k (a :: args)) (fun k => visit_args z passes md5 w blind cwd below vm k (a :: args))); [reflexivity| |].
  - unfold open_report, report_format. cbn [with_ascii rv_tsv rv_no_dir rv_comments]. rewrite H. reflexivity.
  - intros k s. apply ascii_args. exact H.
Qed.
