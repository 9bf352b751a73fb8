(** * Theorems: the names that files get from their tags (C92). *)
From Verif Require Import Base M_Ints M_Stream M_Id3v1 M_Payload M_Frame M_Tag22 M_Tag23 M_Tag24 M_Charset M_Lookup M_Mp3 M_Track M_Read
  M_Fs M_Tagset M_Process M_Cmds M_Csv M_Report M_Split M_Rename M_Tbt M_Naming S_Lookup S_Cmds S_Tagset S_Rename S_Tbt S_Tbt2 S_Naming
  L_Fs L_Tbt7 L_Naming S_Tag23 P_Cmds P_Report P_Tbt2.
#[local] Open Scope N_scope.

(** What a template is given of a file: the texts of the frames of its first ID3v2
    tag with the identifiers of that version, the fields of its ID3v1 tag, its name
    and size, the digest of its audio; and it is given as soon as the file can be
    read and the texts be converted. *)
Theorem C92_known : forall z passes md5 w name data,
  (forall c, context_of z passes md5 w name data = Ok c -> known z passes md5 (w_ic w) name data c) /\
  forall v2 tr v1, report_read z passes md5 data = Ok (v2, tr, v1) ->
    (forall rev t id f u, v2 = Some (rev, t) -> In id (looked_at (any_version t)) -> In f (with_id id (shown t)) -> f_body f = BText u ->
       exists s, text_as_str (any_version t) (w_ic w) u E_UTF_8 NoFail None = Ok s) ->
    exists c, context_of z passes md5 w name data = Ok c.
Proof. intros z passes md5 w name data. split; [apply context_known|]. intros v2 tr v1. apply context_there. Qed.
Print Assumptions C92_known.
Definition ex_bare : bytes := ex_tag1 ++ B "music".
Definition ex_texts : v2texts := mkV2 None (Some (B "Band")) (Some (B "Rock")) (Some (B "Song")) None None.
Definition ex_context : context := mkContext (B "c.mp3") (len ex_bare) [5; 7] (Some ex_texts) None.
Example C92_known_nontrivial : context_of no_zlib 3 ex_md5 ex_world (B "c.mp3") ex_bare = Ok ex_context /\
  exists c, context_of no_zlib 3 ex_md5 ex_world (B "a.mp3") ex_file = Ok c /\ c_v2 c = Some ex_texts /\ v1_value c Artist = B "Band" ++ repeatN 32 26.
Proof. split; [vm_compute; reflexivity|]. eexists. split; [vm_compute; reflexivity|]. split; vm_compute; reflexivity. Qed.

Definition ex_disk : fsys := [([B "m"], Dir); ([B "new"], Dir); ([B "m"; B "a.mp3"], File ex_file); ([B "m"; B "b.mp3"], File (B "more")); ([B "m"; B "c.mp3"], File ex_bare)].
Definition ex_rename (vm : rename_vm) (fs : fsys) := rename_main no_zlib 3 ex_md5 ex_world upcase (B "/") (fun _ => None) (fun _ => []) vm fs.

(** A template all of whose parts can be told: the file is afterwards under the name
    made of them, in its directory or that given; with --rename not under the old
    one; and nothing else has changed. *)
Theorem C92_renamed_partial : forall z passes md5 w ct cwd broken entries vm l p n k fs data c ss,
  cwd <> [] -> nv_args vm = [p] -> nv_dry vm = false -> fst (template_processor Init (given_template vm)) = Ok l ->
  ends_in_name p n -> plain_name n -> resolve cwd p = k ++ [n] -> find_node (k ++ [n]) fs = Some (File data) -> broken p = None ->
  context_of z passes md5 w (filename (absolute cwd p)) data = Ok c -> Forall (regular (w_ic w) c) l -> Forall2 (shows ct (w_ic w) c) l ss ->
  let k' := match given_output vm with [] => k | d => resolve cwd d end in
  let m := concat ss in
  plain_name m -> is_dir fs k' = true -> find_node (k' ++ [m]) fs = None ->
  exists st fs', rename_main z passes md5 w ct cwd broken entries vm fs = (st, (Ok 0, fs')) /\
    find_node (k' ++ [m]) fs' = Some (File data) /\ find_node (k ++ [n]) fs' = (if nv_rename vm then None else Some (File data)) /\
    forall j, j <> k ++ [n] -> j <> k' ++ [m] -> find_node j fs' = find_node j fs.
Proof.
  intros z passes md5 w ct cwd broken entries vm l p n k fs data c ss NC EA ED ET EN PN RP FD BR CO RG SH k' m PM DK NF.
  assert (P : process ct (w_ic w) c l = Ok m) by (apply template_l; eauto).
  exact (renamed_l z passes md5 w ct cwd broken entries vm l p n k fs data c m NC EA ED ET EN PN RP FD CO P PM BR DK NF).
Qed.
Print Assumptions C92_renamed_partial.
Definition ex_by : rename_vm := mkRenameVm false None false (Some (B "%T, by %A(, %Y)?.mp3")) [B "m/c.mp3"].
Definition ex_by_terms : list term := [TAacet Title aacet_default; TText (B ", by "); TAacet Artist aacet_default; TSub [TText (B ", "); TYear FourDigits]; TText (B ".mp3")].
Example C92_renamed_nontrivial : fst (template_processor Init (given_template ex_by)) = Ok ex_by_terms /\ Forall (regular (w_ic ex_world) ex_context) ex_by_terms /\
  (exists ss, Forall2 (shows upcase (w_ic ex_world) ex_context) ex_by_terms ss /\ concat ss = B "Song, by Band.mp3") /\
  fst (snd (ex_rename ex_by ex_disk)) = Ok 0 /\ find_node [B "m"; B "Song, by Band.mp3"] (snd (snd (ex_rename ex_by ex_disk))) = Some (File ex_bare) /\
  find_node [B "m"; B "c.mp3"] (snd (snd (ex_rename ex_by ex_disk))) = Some (File ex_bare).
Proof.
  split; [vm_compute; reflexivity|].
  assert (R : Forall (regular (w_ic ex_world) ex_context) ex_by_terms).
  { unfold ex_by_terms. apply Forall_cons; [apply re_tag; [prefers|discriminate]|]. apply Forall_cons; [constructor|]. apply Forall_cons; [apply re_tag; [prefers|discriminate]|].
    apply Forall_cons; [|apply Forall_cons; constructor]. apply re_optional. apply Forall_cons; [constructor|]. apply Forall_cons; [|constructor].
    apply re_year; [intros _ (_ & K & _); apply K; reflexivity|]. intros y [(v & [(_ & ->)|(K & _)] & _ & ->)|(_ & ->)]; [left; reflexivity|exfalso; apply K; reflexivity|left; reflexivity]. }
  split; [exact R|]. split.
  { destruct (proj1 (proj1 (template_l upcase (w_ic ex_world) ex_context ex_by_terms R) (B "Song, by Band.mp3"))) as (ss & S1 & S2); [vm_compute; reflexivity|]. exists ss. auto. }
  split; [vm_compute; reflexivity|]. split; vm_compute; reflexivity.
Qed.

(** Several files, whose new names are all free and different: each of them is
    renamed, and nothing else has changed. *)
Theorem C92_several_partial : forall z passes md5 w ct cwd broken entries vm l,
  cwd <> [] -> nv_dry vm = false -> forall xs fs, nv_args vm = map rn_path xs -> xs <> [] -> fst (template_processor Init (given_template vm)) = Ok l ->
  Forall (well_placed cwd vm fs) xs -> Forall (well_named z passes md5 w ct cwd l) xs -> Forall (fun x => broken (rn_path x) = None) xs ->
  NoDup (map rn_source xs) -> NoDup (map (rn_target cwd vm) xs) ->
  exists st fs', rename_main z passes md5 w ct cwd broken entries vm fs = (st, (Ok 0, fs')) /\
    Forall (fun x => find_node (rn_target cwd vm x) fs' = Some (File (rn_data x)) /\
                     find_node (rn_source x) fs' = if nv_rename vm then None else Some (File (rn_data x))) xs /\
    forall j, ~ In j (map rn_source xs) -> ~ In j (map (rn_target cwd vm) xs) -> find_node j fs' = find_node j fs.
Proof. exact several_main. Qed.
Print Assumptions C92_several_partial.
Definition ex_song (s : bytes) : bytes := B "ID3" ++ [3; 0; 0; 0; 0; 0; 26 + len s] ++
  B "TPE1" ++ [0; 0; 0; 5; 0; 0; 0] ++ B "Band" ++ B "TIT2" ++ [0; 0; 0; 1 + len s; 0; 0; 0] ++ s ++ B "music".
Definition ex_two : fsys := [([B "m"], Dir); ([B "m"; B "a"], File (ex_song (B "One"))); ([B "m"; B "b"], File (ex_song (B "Two")))].
Definition ex_renamings : list renaming :=
  [mkRenaming (B "m/a") [B "m"] (B "a") (ex_song (B "One")) (B "Band - One.mp3"); mkRenaming (B "m/b") [B "m"] (B "b") (ex_song (B "Two")) (B "Band - Two.mp3")].
Definition ex_twice : rename_vm := mkRenameVm false None true None [B "m/a"; B "m/b"].
Lemma ex_named s : (s = B "One" \/ s = B "Two") -> forall p, exists c ss,
  context_of no_zlib 3 ex_md5 ex_world p (ex_song s) = Ok c /\ Forall (regular (w_ic ex_world) c) default_terms /\
  Forall2 (shows upcase (w_ic ex_world) c) default_terms ss /\ B "Band - " ++ s ++ B ".mp3" = concat ss.
Proof.
  intros H p.
  assert (C : exists c, context_of no_zlib 3 ex_md5 ex_world p (ex_song s) = Ok c /\ v2_value c Artist = B "Band" /\ v2_value c Title = s /\
                process upcase (w_ic ex_world) c default_terms = Ok (B "Band - " ++ s ++ B ".mp3")).
  { destruct H as [-> | ->]; eexists; (split; [vm_compute; reflexivity|]); split; [vm_compute; reflexivity| |vm_compute; reflexivity|]; split; vm_compute; reflexivity. }
  destruct C as (c & C & VA & VT & P). exists c.
  assert (R : Forall (regular (w_ic ex_world) c) default_terms).
  { unfold default_terms. apply Forall_cons; [apply re_tag; [rewrite VA; prefers|discriminate]|]. apply Forall_cons; [constructor|].
    apply Forall_cons; [apply re_tag; [rewrite VT; destruct H as [-> | ->]; prefers|discriminate]|]. apply Forall_cons; constructor. }
  destruct (proj1 (proj1 (template_l upcase (w_ic ex_world) c default_terms R) _) P) as (ss & S1 & S2). exists ss. auto.
Qed.
Example C92_several_nontrivial : Forall (well_placed (B "/") ex_twice ex_two) ex_renamings /\
  Forall (well_named no_zlib 3 ex_md5 ex_world upcase (B "/") default_terms) ex_renamings /\
  NoDup (map rn_source ex_renamings) /\ NoDup (map (rn_target (B "/") ex_twice) ex_renamings) /\
  find_node [B "m"; B "Band - Two.mp3"] (snd (snd (ex_rename ex_twice ex_two))) = Some (File (ex_song (B "Two"))).
Proof.
  assert (PL : forall n, n = B "a" \/ n = B "b" \/ n = B "Band - One.mp3" \/ n = B "Band - Two.mp3" -> plain_name n).
  { intros n [-> | [-> | [-> | ->]]]; (split; [intros K; repeat (destruct K as [K|K]; [discriminate K|]); exact K|]); split; [discriminate| |discriminate| |discriminate| |discriminate|]; split; discriminate. }
  split; [|split; [|split; [|split]]].
  - repeat apply Forall_cons; [..|apply Forall_nil]; (split; [right; exists (B "m"); split; [reflexivity|right; discriminate]|]); cbn [rn_old rn_new];
      (split; [apply PL; tauto|]); (split; [apply PL; tauto|]); (split; [reflexivity|]); (split; [reflexivity|]); split; reflexivity.
  - repeat apply Forall_cons; [apply (ex_named (B "One")); tauto|apply (ex_named (B "Two")); tauto|apply Forall_nil].
  - repeat apply NoDup_cons; [intros [K|[]]; discriminate K|intros []|apply NoDup_nil].
  - repeat apply NoDup_cons; [intros [K|[]]; discriminate K|intros []|apply NoDup_nil].
  - vm_compute. reflexivity.
Qed.

(** The default template, for a file with an artist and a title in its first ID3v2
    tag: "Artist - Title.mp3", with articles at the end. *)
Theorem C92_default_partial : forall z passes md5 w ct cwd broken entries vm p n k fs data rev t tr v1,
  cwd <> [] -> nv_args vm = [p] -> nv_dry vm = false -> nv_template vm = None ->
  ends_in_name p n -> plain_name n -> resolve cwd p = k ++ [n] -> find_node (k ++ [n]) fs = Some (File data) -> broken p = None ->
  report_read z passes md5 data = Ok (Some (rev, t), tr, v1) ->
  (forall id f u, In id (looked_at (any_version t)) -> In f (with_id id (shown t)) -> f_body f = BText u ->
     exists s, text_as_str (any_version t) (w_ic w) u E_UTF_8 NoFail None = Ok s) ->
  exists T, texts_under (w_ic w) t T /\
    forall a b, t_artist T = Some a -> t_title T = Some b -> a <> [] -> b <> [] ->
      exists a' b', spelt ct a a' /\ spelt ct b b' /\
        let k' := match given_output vm with [] => k | d => resolve cwd d end in
        let m := a' ++ B " - " ++ b' ++ B ".mp3" in
        plain_name m -> is_dir fs k' = true -> find_node (k' ++ [m]) fs = None ->
        exists st fs', rename_main z passes md5 w ct cwd broken entries vm fs = (st, (Ok 0, fs')) /\
          find_node (k' ++ [m]) fs' = Some (File data) /\ find_node (k ++ [n]) fs' = (if nv_rename vm then None else Some (File data)) /\
          forall j, j <> k ++ [n] -> j <> k' ++ [m] -> find_node j fs' = find_node j fs.
Proof. exact default_l. Qed.
Print Assumptions C92_default_partial.
Definition ex_moved := ex_rename (mkRenameVm false (Some (B "/new")) true None [B "m/a.mp3"]) ex_disk.
Example C92_default_nontrivial : ends_in_name (B "m/a.mp3") (B "a.mp3") /\ resolve (B "/") (B "m/a.mp3") = [B "m"] ++ [B "a.mp3"] /\
  (exists rev tr v1, report_read no_zlib 3 ex_md5 ex_file = Ok (Some (rev, ex_first), tr, v1)) /\
  fst (snd ex_moved) = Ok 0 /\ find_node [B "new"; B "Band - Song.mp3"] (snd (snd ex_moved)) = Some (File ex_file) /\
  find_node [B "m"; B "a.mp3"] (snd (snd ex_moved)) = None /\ find_node [B "m"; B "b.mp3"] (snd (snd ex_moved)) = Some (File (B "more")).
Proof.
  split. { right. exists (B "m"). split; [reflexivity|right; discriminate]. }
  split; [reflexivity|]. split; [eexists; eexists; eexists; vm_compute; reflexivity|]. split; [vm_compute; reflexivity|]. split; [vm_compute; reflexivity|]. split; vm_compute; reflexivity.
Qed.

(** A part that is not optional and lacks its text: the file is left alone, with the
    status of success. *)
Theorem C92_lacking : forall z passes md5 w ct cwd broken entries vm p fs data c l1 x l2 ss,
  nv_args vm = [p] -> fst (template_processor Init (given_template vm)) = Ok (l1 ++ x :: l2) ->
  resolve cwd p <> [] -> find_node (resolve cwd p) fs = Some (File data) ->
  context_of z passes md5 w (filename (absolute cwd p)) data = Ok c -> Forall (regular (w_ic w) c) (l1 ++ x :: l2) ->
  Forall2 (shows ct (w_ic w) c) l1 ss -> lacks (w_ic w) c x ->
  rename_main z passes md5 w ct cwd broken entries vm fs = ([], (Ok 0, fs)).
Proof.
  intros z passes md5 w ct cwd broken entries vm p fs data c l1 x l2 ss EA ET NR FR CO RG SH LA.
  apply (unnamed_l z passes md5 w ct cwd broken entries vm (l1 ++ x :: l2) p fs data c EA ET NR FR CO).
  apply template_l; [exact RG|]. exists l1, x, l2, ss. auto.
Qed.
Print Assumptions C92_lacking.
Definition ex_album : rename_vm := mkRenameVm false None true (Some (B "%T %L.mp3")) [B "m/c.mp3"].
Example C92_lacking_nontrivial : fst (template_processor Init (given_template ex_album)) =
    Ok ([TAacet Title aacet_default; TText (B " ")] ++ TAacet Album aacet_default :: [TText (B ".mp3")]) /\
  lacks (w_ic ex_world) ex_context (TAacet Album aacet_default) /\ ex_rename ex_album ex_disk = ([], (Ok 0, ex_disk)).
Proof.
  split; [vm_compute; reflexivity|]. split; [|vm_compute; reflexivity]. constructor. left. exists []. split; [left; split; reflexivity|].
  split; [right; right; split; reflexivity|reflexivity].
Qed.

(** Without arguments the status is that of wrong usage; with a template that is
    none, that of failure; and nothing has happened. *)
Theorem C92_usage : forall z passes md5 w ct cwd broken entries vm fs,
  (nv_args vm = [] -> rename_main z passes md5 w ct cwd broken entries vm fs = ([], (Ok 2, fs))) /\
  forall e, nv_args vm <> [] -> fst (template_processor Init (given_template vm)) = Throw e -> rename_main z passes md5 w ct cwd broken entries vm fs = ([], (Ok 1, fs)).
Proof. exact unusable_l. Qed.
Print Assumptions C92_usage.
Example C92_usage_nontrivial : exists e, fst (template_processor Init (B "%(")) = Throw e.
Proof. eexists. vm_compute. reflexivity. Qed.

(** False: that files that only have an ID3v1 tag are named after it, or at least left
    out.  Whatever the conversion library does, the default template makes the run
    fail, unless the artist begins with a byte order mark. *)
Theorem C92_v1_refuted : forall z passes md5 w ct cwd broken entries vm p fs data c,
  nv_args vm = [p] -> nv_template vm = None -> resolve cwd p <> [] -> find_node (resolve cwd p) fs = Some (File data) ->
  context_of z passes md5 w (filename (absolute cwd p)) data = Ok c ->
  v2_value c Artist = [] -> v1_value c Artist <> [] -> no_bom (v1_value c Artist) ->
  rename_main z passes md5 w ct cwd broken entries vm fs = ([], (Ok 1, fs)).
Proof.
  intros z passes md5 w ct cwd broken entries vm p fs data c EA EM NR FR CO V2 V1 NB.
  assert (ET : fst (template_processor Init (given_template vm)) = Ok default_terms) by (unfold given_template; rewrite EM; exact default_terms_eq).
  apply (failing_l z passes md5 w ct cwd broken entries vm default_terms p fs data c InvalidArgument EA ET NR FR CO); [|discriminate].
  exact (default_fails ct (w_ic w) c V2 V1 NB).
Qed.
Print Assumptions C92_v1_refuted.
Example C92_v1_nontrivial : exists c, context_of no_zlib 3 ex_md5 ex_world (B "a.mp3") (B "music" ++ ex_v1) = Ok c /\ v2_value c Artist = [] /\
  v1_value c Artist = B "Band" ++ repeatN 32 26.
Proof. eexists. split; [vm_compute; reflexivity|]. split; vm_compute; reflexivity. Qed.

(** False: that the names are names of files in the directory given.  A slash in a text
    is the one that separates directories: without such a directory the run fails. *)
Theorem C92_slash_refuted : forall z passes md5 w ct cwd broken entries vm l p n k fs data c a m,
  cwd <> [] -> nv_args vm = [p] -> nv_dry vm = false -> fst (template_processor Init (given_template vm)) = Ok l ->
  ends_in_name p n -> plain_name n -> resolve cwd p = k ++ [n] -> find_node (k ++ [n]) fs = Some (File data) -> is_dir fs k = true ->
  context_of z passes md5 w (filename (absolute cwd p)) data = Ok c -> process ct (w_ic w) c l = Ok (a ++ B "/" ++ m) -> plain_name a -> plain_name m ->
  is_dir fs (match given_output vm with [] => k | d => resolve cwd d end ++ [a]) = false ->
  rename_main z passes md5 w ct cwd broken entries vm fs = ([], (Ok 1, fs)).
Proof. exact slash_l. Qed.
Print Assumptions C92_slash_refuted.
Definition ex_slashed (a : bytes) : bytes := B "ID3" ++ [3; 0; 0; 0; 0; 0; 26 + len a] ++
  B "TPE1" ++ [0; 0; 0; 1 + len a; 0; 0; 0] ++ a ++ B "TIT2" ++ [0; 0; 0; 5; 0; 0; 0] ++ B "Song" ++ B "music".
Definition ex_disk2 (a : bytes) : fsys := [([B "m"], Dir); ([B "new"], Dir); ([B "m"; B "a.mp3"], File (ex_slashed a))].
Example C92_slash_nontrivial : (exists c, context_of no_zlib 3 ex_md5 ex_world (B "a.mp3") (ex_slashed (B "AC/DC")) = Ok c /\
    process upcase (w_ic ex_world) c default_terms = Ok (B "AC" ++ B "/" ++ B "DC - Song.mp3")) /\
  ex_rename (mkRenameVm false None true None [B "m/a.mp3"]) (ex_disk2 (B "AC/DC")) = ([], (Ok 1, ex_disk2 (B "AC/DC"))).
Proof. split; [eexists; split; vm_compute; reflexivity|vm_compute; reflexivity]. Qed.

(** ... and with a text that begins with one, the file goes wherever the text says,
    whatever directory is given. *)
Theorem C92_outside_refuted : forall z passes md5 w ct cwd broken entries vm l p fs data c r,
  cwd <> [] -> p <> [] -> nv_args vm = [p] -> nv_dry vm = false -> fst (template_processor Init (given_template vm)) = Ok l ->
  find_node (resolve cwd p) fs = Some (File data) -> resolve cwd p <> [] ->
  context_of z passes md5 w (filename (absolute cwd p)) data = Ok c -> process ct (w_ic w) c l = Ok (B "/" ++ r) -> last r 47 <> 47 -> broken p = None ->
  let k := resolve_abs (B "/" ++ r) in
  is_dir fs (removelast k) = true -> find_node k fs = None -> k <> [] ->
  exists st fs', rename_main z passes md5 w ct cwd broken entries vm fs = (st, (Ok 0, fs')) /\
    find_node k fs' = Some (File data) /\ find_node (resolve cwd p) fs' = (if nv_rename vm then None else Some (File data)).
Proof. exact absolute_l. Qed.
Print Assumptions C92_outside_refuted.
Definition ex_out := ex_rename (mkRenameVm false (Some (B "/m")) true None [B "m/a.mp3"]) (ex_disk2 (B "/new/Band")).
Example C92_outside_nontrivial : fst (snd ex_out) = Ok 0 /\ find_node [B "new"; B "Band - Song.mp3"] (snd (snd ex_out)) = Some (File (ex_slashed (B "/new/Band"))) /\
  find_node [B "m"; B "a.mp3"] (snd (snd ex_out)) = None.
Proof. split; [vm_compute; reflexivity|]. split; vm_compute; reflexivity. Qed.

(** False: that a file whose new name is taken is passed over.  The run fails there
    and then; the remaining arguments are not looked at. *)
Theorem C92_stops_refuted : forall z passes md5 w ct cwd broken entries vm l p rest n k fs data c m x,
  cwd <> [] -> nv_args vm = p :: rest -> nv_dry vm = false -> fst (template_processor Init (given_template vm)) = Ok l ->
  ends_in_name p n -> plain_name n -> resolve cwd p = k ++ [n] -> find_node (k ++ [n]) fs = Some (File data) ->
  context_of z passes md5 w (filename (absolute cwd p)) data = Ok c -> process ct (w_ic w) c l = Ok m -> plain_name m ->
  let k' := match given_output vm with [] => k | d => resolve cwd d end in
  find_node (k' ++ [m]) fs = Some x -> k' ++ [m] <> k ++ [n] ->
  rename_main z passes md5 w ct cwd broken entries vm fs = ([], (Ok 1, fs)).
Proof. exact taken_l. Qed.
Print Assumptions C92_stops_refuted.
Definition ex_taken : fsys := ([B "new"; B "Band - Song.mp3"], File [1]) :: ex_disk.
Example C92_stops_nontrivial :
  ex_rename (mkRenameVm false (Some (B "/new")) true None [B "m/a.mp3"; B "m/b.mp3"]) ex_taken = ([], (Ok 1, ex_taken)) /\
  process upcase (w_ic ex_world) ex_context default_terms = Ok (B "Band - Song.mp3").
Proof. split; vm_compute; reflexivity. Qed.
