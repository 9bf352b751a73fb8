(** * Properties: processing the tags of a file (C42). *)
From Verif Require Import Base M_Ints M_Stream M_Id3v1 M_Payload M_Frame M_Tag22 M_Tag23 M_Tag24 M_Read S_Read M_Fs M_Tagset
  S_Tag23 S_Tagset M_Process S_Process L_Process P_Tagset.
From Coq Require Import Sorting.Sorted.

(** ** Examples: a command that sets paddings *)
Definition ex_cmd : command := mkCommand (fun t => (true, any_set_padding t 7)) (fun t => (false, t)) (fun _ => None)
  (Some (hd (A22 (mkTag22 None false 0 [])) (ex_new 0))) (fun _ => Some (v1_scratch false false)) (Some (v1_scratch false false)).
Definition ex_pol (s : v2_scope) : policies := mkPol s true V2Always V1Never false true true.
Definition ex_three : list anytag := ex_new 1 ++ ex_new 2 ++ ex_new 3.

(** Whatever tags a file has, whatever the policies and whatever the command does:
    just the tags in scope are processed, once each and in order, tags are created
    just as the tables say, and what comes out is what should.  With an index list,
    this needs the list to be ascending and to reach the last tag. *)
Theorem C42_calls_partial : forall c p v2 v1, scope_fits p v2 ->
  process_tagset (logged c) p v2 v1 [] =
    Ok (is_dirty c p v2 v1, new_v2 c p v2 v1, new_v1 c p v2 v1, wanted_calls c p v2 v1).
Proof. exact process_tagset_eq. Qed.
Print Assumptions C42_calls_partial.
Example C42_calls_nontrivial :
  scope_fits (ex_pol (TagsSome [0; 2])) ex_three /\
  wanted_calls ex_cmd (ex_pol (TagsSome [0; 2])) ex_three None = map ProcessV2 (ex_new 1 ++ ex_new 3) /\
  new_v2 ex_cmd (ex_pol (TagsSome [0; 2])) ex_three None = ex_new 7 ++ ex_new 2 ++ ex_new 7 /\
  wanted_calls ex_cmd (ex_pol TagsAll) [] None = [CreateV2] /\ new_v2 ex_cmd (ex_pol TagsAll) [] None = ex_new 0.
Proof.
  split; [|repeat split; reflexivity]. intros _. split; [repeat constructor|]. exists 2. split; [right; left; reflexivity|].
  apply N.leb_le. reflexivity.
Qed.

(** An index list that does not reach the last tag: the list is read past its end. *)
Theorem C42_exhausted_refuted : forall c p idx v2 v1, p_v2_scope p = TagsSome idx -> StronglySorted N.lt idx -> v2 <> [] ->
  (forall x, In x idx -> x + 1 < len v2) -> process_tagset (logged c) p v2 v1 [] = UB OutOfBounds.
Proof. exact process_exhausted. Qed.
Print Assumptions C42_exhausted_refuted.
Example C42_exhausted_nontrivial : StronglySorted N.lt [0; 1] /\ ex_three <> [] /\ forall x, In x [0; 1] -> x + 1 < len ex_three.
Proof. split; [repeat constructor|]. split; [discriminate|]. intros x [<-|[<-|[]]]; reflexivity. Qed.

(** An index list whose second entry is smaller than its first: only the tag named
    first is processed, if any. *)
Theorem C42_unordered_refuted : forall c p a b idx v2 v1 d v2' v1' log, p_v2_scope p = TagsSome (a :: b :: idx) -> b < a ->
  process_tagset (logged c) p v2 v1 [] = Ok (d, v2', v1', log) ->
  forall t, In (ProcessV2 t) log -> nth_error v2 (N.to_nat a) = Some t.
Proof. exact process_passed. Qed.
Print Assumptions C42_unordered_refuted.
Example C42_unordered_nontrivial : exists d v2' v1' log,
  process_tagset (logged ex_cmd) (ex_pol (TagsSome [1; 0; 2])) ex_three None [] = Ok (d, v2', v1', log) /\
  map any_padding v2' = [1; 7; 3].
Proof. do 4 eexists. split; reflexivity. Qed.

(** Nothing is written in a dry run, whatever the command does ... *)
Theorem C42_dry_run : forall S z passes e (P : processor S) p path s fs, p_dry p = true ->
  fst (process_file z passes e P p path s fs) = [] /\ snd (snd (process_file z passes e P p path s fs)) = fs.
Proof. exact @process_dry. Qed.
Print Assumptions C42_dry_run.
Example C42_dry_run_nontrivial : p_dry (mkPol TagsAll true V2Always V1Never true true true) = true.
Proof. reflexivity. Qed.

(** ... nor if nothing was created and no call reported a change. *)
Theorem C42_unwritten_partial : forall z passes e c p path fs data v2 v1,
  find_node (resolve (e_cwd e) path) fs = Some (File data) -> read_tagset z passes data = Ok (v2, v1) -> scope_fits p v2 ->
  is_dirty c p v2 v1 = false \/ p_dry p = true ->
  process_file z passes e (logged c) p path [] fs = ([], (Ok (wanted_calls c p v2 v1), fs)).
Proof. exact process_unwritten. Qed.
Print Assumptions C42_unwritten_partial.
Definition ex_read : list anytag * option id3v1_tag :=
  match read_tagset no_zlib 1 ex_old with Ok x => x | _ => ([], None) end.
Example C42_unwritten_nontrivial :
  read_tagset no_zlib 1 ex_old = Ok ex_read /\ List.length (fst ex_read) = 1%nat /\
  is_dirty ex_cmd (ex_pol TagsNone) (fst ex_read) (snd ex_read) = false.
Proof. vm_compute. repeat split. Qed.

(** What is written, with backups: the new tags, what followed the old ones, and the
    new ID3v1 tag, if there is one, in place of the old one.  Other files keep
    their content, but for the temporary one and backups. *)
Theorem C42_saved_backup_partial : forall z passes e c p path d n fs data l,
  let k := resolve (e_cwd e) path in
  path <> [] -> hd 0 (e_cwd e) = 47 -> dir_path d -> plain_name n ->
  absolute (e_cwd e) path = spelled d n -> find_node k fs = Some (File data) -> tags_from data 0 l ->
  ~ In 46 (last (e_tmp e) []) -> e_tmp e <> k ->
  forall v2 v1, read_tagset z passes data = Ok (v2, v1) -> scope_fits p v2 -> is_dirty c p v2 v1 = true -> p_dry p = false ->
  forall st log fs', p_backups p = true ->
  process_file z passes e (logged c) p path [] fs = (st, (Ok log, fs')) ->
  log = wanted_calls c p v2 v1 /\
  (exists w r f, emit_all z (if p_adjust p then AsNeeded else Never) (new_v2 c p v2 v1) = (w, Ok r) /\
     saved w (dropN (tags_end 0 l) data) (new_v1 c p v2 v1) f /\ find_node k fs' = Some (File f)) /\
  forall j, j <> k -> j <> e_tmp e -> ~ is_backup d n j -> find_node j fs' = find_node j fs.
Proof. exact process_saved_backup. Qed.
Print Assumptions C42_saved_backup_partial.
Example C42_saved_backup_nontrivial : exists st fs' w r,
  process_file no_zlib 1 (ex_env RenameOk) (logged ex_cmd) (ex_pol TagsAll) (B "a") [] ex_fs =
    (st, (Ok (wanted_calls ex_cmd (ex_pol TagsAll) (fst ex_read) (snd ex_read)), fs')) /\
  emit_all no_zlib AsNeeded (new_v2 ex_cmd (ex_pol TagsAll) (fst ex_read) (snd ex_read)) = (w, Ok r) /\ len w = 27 /\
  find_node ex_key fs' = Some (File (w ++ B "music")).
Proof. do 4 eexists. split; [vm_compute; reflexivity|]. split; [vm_compute; reflexivity|]. split; vm_compute; reflexivity. Qed.

(** At every point of such a run the old file, or what followed its tags, is in
    place, or the old file is in a backup. *)
Theorem C42_crash_partial : forall z passes e c p path d n fs data l v2 v1, let k := resolve (e_cwd e) path in
  path <> [] -> hd 0 (e_cwd e) = 47 -> dir_path d -> plain_name n ->
  absolute (e_cwd e) path = spelled d n -> find_node k fs = Some (File data) -> tags_from data 0 l ->
  ~ In 46 (last (e_tmp e) []) -> e_tmp e <> k ->
  read_tagset z passes data = Ok (v2, v1) -> scope_fits p v2 -> p_backups p = true ->
  let '(st, (_, fs')) := process_file z passes e (logged c) p path [] fs in
  Forall (fun s => (find_node k s = Some (File data) \/
                    (exists w x base, find_node k s = Some (File (base ++ x)) /\
                       (base = w ++ dropN (tags_end 0 l) data \/ maybe_remove_id3v1 (w ++ dropN (tags_end 0 l) data) = Ok base)) \/
                    exists b, is_backup d n b /\ find_node b s = Some (File data)) /\
                   forall j, j <> k -> j <> e_tmp e -> ~ is_backup d n j -> find_node j s = find_node j fs) (fs' :: st).
Proof. exact process_crash. Qed.
Print Assumptions C42_crash_partial.
Example C42_crash_nontrivial :
  (20 < List.length (fst (process_file no_zlib 1 (ex_env RenameOk) (logged ex_cmd) (ex_pol TagsAll) (B "a") [] ex_fs)))%nat.
Proof. vm_compute. repeat constructor. Qed.

(** ... and without backups, where the paddings may be adjusted.  (For tags
    without extended headers or with plain ones; the paddings of ID3v2.4 tags leave a gap; see C34.) *)
Theorem C42_saved_partial : forall z passes e c p path d n fs data l,
  let k := resolve (e_cwd e) path in
  path <> [] -> hd 0 (e_cwd e) = 47 -> dir_path d -> plain_name n ->
  absolute (e_cwd e) path = spelled d n -> find_node k fs = Some (File data) -> tags_from data 0 l ->
  ~ In 46 (last (e_tmp e) []) -> e_tmp e <> k ->
  forall v2 v1, read_tagset z passes data = Ok (v2, v1) -> scope_fits p v2 -> is_dirty c p v2 v1 = true -> p_dry p = false ->
  forall st log fs' nn pd ts1, let m := if p_adjust p then AsNeeded else Never in p_backups p = false ->
  tags_end 0 l < 2 ^ 28 -> tags_end 0 l <= len data ->
  Forall sound_tag (new_v2 c p v2 v1) -> Forall (fun t => any_padding t < 2 ^ 62) (new_v2 c p v2 v1) ->
  sizes z m (new_v2 c p v2 v1) = Ok (nn, pd, ts1) -> nn < 2 ^ 28 ->
  ~ wraps (new_v2 c p v2 v1) (tags_end 0 l) nn ->
  process_file z passes e (logged c) p path [] fs = (st, (Ok log, fs')) ->
  log = wanted_calls c p v2 v1 /\
  (exists w gap r f, map contents r = map contents (new_v2 c p v2 v1) /\ emit_all z m r = (w, Ok r) /\
     saved w (gap ++ dropN (tags_end 0 l) data) (new_v1 c p v2 v1) f /\
     (gap = [] \/ gap = dropN (len w) (takeN (tags_end 0 l) data) /\ len gap = v24_padding r) /\ find_node k fs' = Some (File f)) /\
  forall j, j <> k -> j <> e_tmp e -> ~ is_backup d n j -> find_node j fs' = find_node j fs.
Proof. exact process_saved. Qed.
Print Assumptions C42_saved_partial.
Definition ex_nobak : policies := mkPol TagsAll true V2Never V1WhenV2Present false false false.
Example C42_saved_nontrivial : exists st fs' nn pd ts1,
  process_file no_zlib 1 (ex_env RenameOk) (logged ex_cmd) ex_nobak (B "a") [] ex_fs =
    (st, (Ok (wanted_calls ex_cmd ex_nobak (fst ex_read) (snd ex_read)), fs')) /\
  sizes no_zlib Never (new_v2 ex_cmd ex_nobak (fst ex_read) (snd ex_read)) = Ok (nn, pd, ts1) /\
  option_map (fun x => match x with File b => len b | Dir => 0 end) (find_node ex_key fs') = Some (20 + 5 + 128).
Proof. do 5 eexists. split; [vm_compute; reflexivity|]. split; vm_compute; reflexivity. Qed.
