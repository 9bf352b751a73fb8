(** * C29 - C34: saving tagsets. *)
From Verif Require Import Base M_Ints M_Stream M_Payload M_Frame M_Tag22 M_Tag23 M_Tag24 M_Read M_Fs M_Tagset
  S_Tag S_Tag22 S_Tag23 S_Tag24 S_Stream S_Read S_Tagset L_Fs L_Backup L_Tagset L_Tagset2 L_Tagset3 L_Tagset4 L_Tagset5 L_Tagset6 L_Tagset7 L_Tagset8.

(** ** The examples: a file "/m/a" that begins with an ID3v2.2 tag of 20 bytes *)
Definition ex_m : bytes := B "/m".
Definition ex_a : bytes := B "a".
Definition ex_old : bytes := B "ID3" ++ [2; 0; 0; 0; 0; 0; 10] ++ B "TT2" ++ [0; 0; 4; 0] ++ B "abc" ++ B "music".
Definition ex_old_heads : list head := [mkHead 0 2 0 0 10].
Definition ex_key : key := [B "m"; B "a"].
Definition ex_fs : fsys := [([B "m"], Dir); (ex_key, File ex_old); ([B "m"; B "a.1"], File (B "older"))].
Definition ex_env (r : rename_result) : env := mkEnv (B "/m") [B "tmp"; B "x"] r None None None.
Definition ex_new (pad : N) : list anytag := [A22 (mkTag22 None false pad [new_frame (title22 (B "abcdef"))])].
Example ex_old_tags : tags_from ex_old 0 ex_old_heads /\ tags_end 0 ex_old_heads = 20 /\ len ex_old = 25.
Proof.
  split; [|split; reflexivity]. split; [reflexivity|]. split.
  { exists 0, 0, 0, 10. eexists. split; [reflexivity|]. repeat split; try discriminate; repeat constructor. }
  intros v r f sz (z0 & z1 & z2 & z3 & rest & E & _). discriminate E.
Qed.
Example ex_names : dir_path ex_m /\ plain_name ex_a /\ absolute (B "/m") (B "a") = spelled ex_m ex_a.
Proof.
  split; [right; split; [reflexivity|discriminate]|]. split; [|reflexivity].
  repeat split; try discriminate. intros [H|[]]. discriminate H.
Qed.

(** The chain of tags at the front of a file always exists, so that no file is
    left out below. *)
Theorem C29_every_file : forall data, exists l, tags_from data 0 l.
Proof. exact tags_exist. Qed.
Print Assumptions C29_every_file.
Example C29_every_file_nontrivial : tags_from ex_old 0 ex_old_heads.
Proof. apply ex_old_tags. Qed.

(** ** C29: rewriting by copy *)

(** Whatever the surroundings do: if the rewrite succeeds, the file is the new
    tags followed by exactly what followed the old ones, and every other file,
    except the temporary one and a backup, is as it was. *)
Theorem C29_audio : forall z e p d n ts m keep w o fs data l r fs',
  let k := resolve (e_cwd e) p in
  p <> [] -> hd 0 (e_cwd e) = 47 -> dir_path d -> plain_name n -> absolute (e_cwd e) p = spelled d n ->
  find_node k fs = Some (File data) -> tags_from data 0 l -> emit_all z m ts = (w, o) ->
  ~ In 46 (last (e_tmp e) []) -> e_tmp e <> k ->
  snd (replace_tagset_copy z e p ts m keep fs) = (Ok r, fs') ->
  o = Ok r /\ find_node k fs' = Some (File (w ++ dropN (tags_end 0 l) data)) /\
  forall j, j <> k -> j <> e_tmp e -> ~ is_backup d n j -> find_node j fs' = find_node j fs.
Proof.
  intros z e p d n ts m keep w o fs data l r fs' k Hp Hc Hd Hn HA Hk Hl He Ht Htk H.
  pose proof (copy_any z e p d n ts m keep w o fs data l Hp Hc Hd Hn HA Hk Hl He Ht Htk) as C. cbv zeta in C.
  destruct (replace_tagset_copy z e p ts m keep fs) as [st [r0 fs0]]. cbn [snd] in H. injection H as -> ->.
  destruct C as (_ & [_ C1] & C2 & C3). auto.
Qed.
Print Assumptions C29_audio.
Example C29_audio_nontrivial : exists w r fs',
  emit_all no_zlib AsNeeded (ex_new 3) = (w, Ok r) /\ len w = 26 /\
  snd (replace_tagset_copy no_zlib (ex_env RenameXdev) (B "a") (ex_new 3) AsNeeded true ex_fs) = (Ok r, fs') /\
  find_node ex_key fs' = Some (File (w ++ B "music")).
Proof. eexists _, _, _. vm_compute. repeat split. Qed.

(** With the temporary file on the same device and no backup, it succeeds
    whenever the tags can be written, and nothing else changes. *)
Theorem C29_same_device : forall z e p ts m w ts' fs data l, let k := resolve (e_cwd e) p in
  find_node k fs = Some (File data) -> tags_from data 0 l -> tags_end 0 l <= len data ->
  emit_all z m ts = (w, Ok ts') -> e_tmp e <> k -> find_node (e_tmp e) fs = None -> e_rename e = RenameOk ->
  exists fs', snd (replace_tagset_copy z e p ts m false fs) = (Ok ts', fs') /\
    find_node k fs' = Some (File (w ++ dropN (tags_end 0 l) data)) /\ forall j, j <> k -> find_node j fs' = find_node j fs.
Proof. exact copy_plain. Qed.
Print Assumptions C29_same_device.
Example C29_same_device_nontrivial : exists w r,
  emit_all no_zlib AsNeeded (ex_new 3) = (w, Ok r) /\ find_node [B "tmp"; B "x"] ex_fs = None /\ tags_end 0 ex_old_heads <= len ex_old.
Proof. eexists _, _. vm_compute. repeat split. discriminate. Qed.

(** With a backup: the backup is new, holds the old content, and nothing else
    changes.  Missing: relative paths (C31), and renaming across devices (next). *)
Theorem C29_backup_partial : forall z e d n ts m w ts' fs data l r fs', let p := spelled d n in let k := resolve_abs p in
  dir_path d -> plain_name n -> find_node k fs = Some (File data) -> tags_from data 0 l -> tags_end 0 l <= len data ->
  emit_all z m ts = (w, Ok ts') -> e_tmp e <> k -> ~ In 46 (last (e_tmp e) []) -> find_node (e_tmp e) fs = None -> e_rename e = RenameOk ->
  snd (replace_tagset_copy z e p ts m true fs) = (Ok r, fs') ->
  find_node k fs' = Some (File (w ++ dropN (tags_end 0 l) data)) /\
  exists c, is_backup d n c /\ find_node c fs = None /\ find_node c fs' = Some (File data) /\
    forall j, j <> k -> j <> c -> find_node j fs' = find_node j fs.
Proof. exact copy_backup. Qed.
Print Assumptions C29_backup_partial.
Example C29_backup_nontrivial : exists w r fs',
  snd (replace_tagset_copy no_zlib (ex_env RenameOk) (spelled ex_m ex_a) (ex_new 3) AsNeeded true ex_fs) = (Ok r, fs') /\
  find_node ex_key fs' = Some (File (w ++ B "music")) /\ find_node [B "m"; B "a.1"] fs' = Some (File (B "older")) /\
  find_node [B "m"; B "a.2"] fs' = Some (File ex_old).
Proof. eexists (_ :: _ :: _ :: _ :: _ :: _ :: _ :: _ :: _ :: _ :: _ :: _ :: _ :: _ :: _ :: _ :: _ :: _ :: _ :: _ :: _ :: _ :: _ :: _ :: _ :: [_]), _, _. vm_compute. repeat split. Qed.

(** Across devices something else does change, on every success: with a backup
    the temporary file is left behind ... *)
Theorem C29_leftover_refuted : forall z e d n ts m w ts' fs data l r fs', let p := spelled d n in let k := resolve_abs p in
  dir_path d -> plain_name n -> find_node k fs = Some (File data) -> tags_from data 0 l -> tags_end 0 l <= len data ->
  emit_all z m ts = (w, Ok ts') -> e_tmp e <> k -> ~ In 46 (last (e_tmp e) []) -> e_rename e = RenameXdev ->
  snd (replace_tagset_copy z e p ts m true fs) = (Ok r, fs') ->
  find_node (e_tmp e) fs' = Some (File (w ++ dropN (tags_end 0 l) data)).
Proof. exact xdev_keep. Qed.
Print Assumptions C29_leftover_refuted.
Example C29_leftover_nontrivial : exists r fs' b,
  snd (replace_tagset_copy no_zlib (ex_env RenameXdev) (spelled ex_m ex_a) (ex_new 3) AsNeeded true ex_fs) = (Ok r, fs') /\
  find_node [B "tmp"; B "x"] ex_fs = None /\ find_node [B "tmp"; B "x"] fs' = Some b.
Proof. eexists _, _, _. vm_compute. repeat split. Qed.

(** ... and without one, a backup nobody asked for. *)
Theorem C29_unwanted_backup_refuted : forall z e d n ts m w ts' fs data l r fs', let p := spelled d n in let k := resolve_abs p in
  dir_path d -> plain_name n -> find_node k fs = Some (File data) -> tags_from data 0 l -> tags_end 0 l <= len data ->
  emit_all z m ts = (w, Ok ts') -> e_tmp e <> k -> ~ In 46 (last (e_tmp e) []) -> e_rename e = RenameXdev ->
  snd (replace_tagset_copy z e p ts m false fs) = (Ok r, fs') ->
  exists c, is_backup d n c /\ find_node c fs = None /\ find_node c fs' = Some (File data).
Proof. exact xdev_nokeep. Qed.
Print Assumptions C29_unwanted_backup_refuted.
Example C29_unwanted_backup_nontrivial : exists r fs',
  snd (replace_tagset_copy no_zlib (ex_env RenameXdev) (spelled ex_m ex_a) (ex_new 3) AsNeeded false ex_fs) = (Ok r, fs') /\
  find_node [B "m"; B "a.2"] fs' = Some (File ex_old).
Proof. eexists _, _. vm_compute. repeat split. Qed.

(** ** C30: crashes *)

(** In every state the rewrite passes through -- wherever the tags fail to be
    written, a copy breaks off, or renaming fails -- and in the one it ends in,
    the old content or the complete new content is there, under the file's name
    or under a backup's; other files are as they were. *)
Theorem C30_crash_safe : forall z e p d n ts m keep fs data l, let k := resolve (e_cwd e) p in
  p <> [] -> hd 0 (e_cwd e) = 47 -> dir_path d -> plain_name n -> absolute (e_cwd e) p = spelled d n ->
  find_node k fs = Some (File data) -> tags_from data 0 l ->
  ~ In 46 (last (e_tmp e) []) -> e_tmp e <> k ->
  let '(states, (_, final)) := replace_tagset_copy z e p ts m keep fs in
  forall s, In s (fs :: states ++ [final]) ->
    (find_node k s = Some (File data) \/
     find_node k s = Some (File (fst (emit_all z m ts) ++ dropN (tags_end 0 l) data)) \/
     exists c, is_backup d n c /\ find_node c s = Some (File data)) /\
    forall j, j <> k -> j <> e_tmp e -> ~ is_backup d n j -> find_node j s = find_node j fs.
Proof.
  intros z e p d n ts m keep fs data l k Hp Hc Hd Hn HA Hk Hl Ht Htk.
  destruct (emit_all z m ts) as [w o] eqn:He.
  pose proof (copy_any z e p d n ts m keep w o fs data l Hp Hc Hd Hn HA Hk Hl He Ht Htk) as C. cbv zeta in C.
  destruct (replace_tagset_copy z e p ts m keep fs) as [st [r fs']]. destruct C as (C1 & C2 & _).
  intros s [<-|Hs]; [split; [left; exact Hk|reflexivity]|]. apply in_app_iff in Hs as [Hs|[<-|[]]]; [|exact C2].
  rewrite Forall_forall in C1. now apply C1.
Qed.
Print Assumptions C30_crash_safe.
(** There is a state without the file: between removing and copying. *)
Example C30_crash_safe_nontrivial :
  let '(states, _) := replace_tagset_copy no_zlib (ex_env RenameXdev) (B "a") (ex_new 3) AsNeeded false ex_fs in
  len states = 95 /\ existsb (fun s => match find_node ex_key s with None => true | _ => false end) states = true.
Proof. vm_compute. auto. Qed.

(** ** C31: backups *)

(** An absolute path: the name is new, its number above that of every backup
    there is.  Missing: relative paths (refuted below). *)
Theorem C31_fresh_partial : forall fs cwd d n name, dir_path d -> plain_name n ->
  get_backup_name fs cwd (spelled d n) = Ok name ->
  exists ds, name = spelled d n ++ B "." ++ ds /\ ds <> [] /\ forallb is_digit ds = true /\
    find_node (resolve cwd name) fs = None /\
    forall ds', ds' <> [] -> forallb is_digit ds' = true ->
      find_node (resolve cwd (spelled d n ++ B "." ++ ds')) fs <> None -> value_of ds' < value_of ds.
Proof. exact backup_fresh. Qed.
Print Assumptions C31_fresh_partial.
Example C31_fresh_nontrivial : get_backup_name ex_fs (B "/") (spelled ex_m ex_a) = Ok (B "/m/a.2").
Proof. reflexivity. Qed.

(** So no existing file is lost, at any point of the rewrite. *)
Theorem C31_keeps_partial : forall z e d n ts m keep w o fs data l, let p := spelled d n in let k := resolve_abs p in
  dir_path d -> plain_name n ->
  find_node k fs = Some (File data) -> tags_from data 0 l -> emit_all z m ts = (w, o) ->
  ~ In 46 (last (e_tmp e) []) -> e_tmp e <> k ->
  let '(st, (_, fs')) := replace_tagset_copy z e p ts m keep fs in
  Forall (fun s => forall j, j <> k -> j <> e_tmp e -> find_node j fs <> None -> find_node j s = find_node j fs) (fs' :: st).
Proof. exact copy_absolute. Qed.
Print Assumptions C31_keeps_partial.
Example C31_keeps_nontrivial : find_node [B "m"; B "a.1"] ex_fs <> None.
Proof. discriminate. Qed.

(** A relative path: the name is always that ending in ".1", whatever exists ... *)
Theorem C31_relative_refuted : forall fs cwd p, p <> [] -> hd 0 p <> 47 -> hd 0 cwd = 47 ->
  get_backup_name fs cwd p = Ok (join (parent_path (absolute cwd p)) (filename p ++ B ".1")).
Proof. exact backup_relative. Qed.
Print Assumptions C31_relative_refuted.
Example C31_relative_nontrivial : get_backup_name ex_fs (B "/m") (B "a") = Ok (B "/m/a.1").
Proof. reflexivity. Qed.

(** ... so that rewriting replaces the backup there is. *)
Theorem C31_overwritten_refuted : forall z e p d n ts m w ts' fs data old l r fs', let k := resolve (e_cwd e) p in
  p <> [] -> hd 0 p <> 47 -> hd 0 (e_cwd e) = 47 -> dir_path d -> plain_name n -> absolute (e_cwd e) p = spelled d n ->
  let c := resolve_abs (spelled d n ++ B ".1") in
  find_node k fs = Some (File data) -> tags_from data 0 l -> tags_end 0 l <= len data ->
  emit_all z m ts = (w, Ok ts') -> e_tmp e <> k -> ~ In 46 (last (e_tmp e) []) -> e_rename e = RenameOk ->
  find_node c fs = Some (File old) ->
  snd (replace_tagset_copy z e p ts m true fs) = (Ok r, fs') ->
  find_node c fs' = Some (File data).
Proof. exact relative_overwrites. Qed.
Print Assumptions C31_overwritten_refuted.
Example C31_overwritten_nontrivial : exists r fs',
  snd (replace_tagset_copy no_zlib (ex_env RenameOk) (B "a") (ex_new 3) AsNeeded true ex_fs) = (Ok r, fs') /\
  find_node [B "m"; B "a.1"] ex_fs = Some (File (B "older")) /\ find_node [B "m"; B "a.1"] fs' = Some (File ex_old).
Proof. eexists _, _. vm_compute. repeat split. Qed.

(** After backup 2147483647 the next number overflows. *)
Theorem C31_overflow_refuted : forall fs cwd d n nd, dir_path d -> plain_name n ->
  find_node (resolve_abs (spelled d n ++ B "." ++ B "2147483647")) fs = Some nd ->
  (forall ds, ds <> [] -> forallb is_digit ds = true ->
     find_node (resolve_abs (spelled d n ++ B "." ++ ds)) fs <> None -> value_of ds < 2 ^ 31) ->
  get_backup_name fs cwd (spelled d n) = UB Overflow.
Proof. exact backup_overflow. Qed.
Print Assumptions C31_overflow_refuted.
Example C31_overflow_nontrivial :
  get_backup_name [([B "m"; B "a.2147483647"], Dir)] (B "/") (spelled ex_m ex_a) = UB Overflow.
Proof. vm_compute. reflexivity. Qed.

(** ** C32: in place *)

(** Writing in place either throws and leaves everything as it was, or keeps the
    file's length and everything after the old tags, and puts the new tags in
    front -- for ID3v2.2 and ID3v2.3 tags, exactly up to the audio.
    Missing: extended headers with a checksum, and, of those that unsynchronisation
    would touch, more than is refuted below; tags so long that their sizes exceed
    64 bits (C34). *)
Theorem C32_emplace_partial : forall z e p ts m fs data l n pd ts1, let k := resolve (e_cwd e) p in
  find_node k fs = Some (File data) -> tags_from data 0 l -> Forall sound_tag ts ->
  sizes z m ts = Ok (n, pd, ts1) -> n < 2 ^ 64 ->
  tags_end 0 l < 2 ^ 28 -> tags_end 0 l <= len data ->
  (exists x, replace_tagset_emplace z e p ts m fs = ([], (Throw x, fs))) \/
  exists w data', snd (replace_tagset_emplace z e p ts m fs) = (Ok ts1, set_node k (File data') fs) /\
    fst (emit_all z m ts) = w /\ takeN (len w) data' = w /\ len data' = len data /\ len w <= tags_end 0 l /\
    dropN (tags_end 0 l) data' = dropN (tags_end 0 l) data /\
    (Forall simple_tag ts -> data' = w ++ dropN (tags_end 0 l) data).
Proof.
  intros z e p ts m fs data l n pd ts1 k Hk Hl Hs Hz Hn HT HL.
  pose proof (emplace_cases z e p ts m fs data l n pd ts1 Hk Hl Hs Hz Hn HT HL) as C.
  destruct ((tags_end 0 l =? n) && (0 <? len data)); [right|left; exact C].
  destruct C as (w & E1 & E2 & L1 & L2 & E3). exists w, (w ++ dropN (len w) data). rewrite E3. cbn [snd].
  split; [reflexivity|]. split; [exact E2|]. split; [now apply takeN_app_exact|].
  split; [rewrite len_app, len_dropN; lia|]. split; [exact L1|]. split.
  - replace (tags_end 0 l) with (len w + (tags_end 0 l - len w)) by lia. rewrite <- !dropN_dropN.
    rewrite (dropN_app_exact (len w)) by reflexivity. reflexivity.
  - intros HF. now rewrite (L2 HF).
Qed.
Print Assumptions C32_emplace_partial.
Example C32_emplace_nontrivial : exists n pd ts1 fs',
  let ts := [A22 (mkTag22 None false 1 [new_frame (title22 (B "xy"))])] in
  sizes no_zlib AsNeeded ts = Ok (n, pd, ts1) /\ Forall simple_tag ts /\
  snd (replace_tagset_emplace no_zlib (ex_env RenameOk) (B "a") ts AsNeeded ex_fs) = (Ok ts1, fs') /\
  find_node ex_key fs' = Some (File (B "ID3" ++ [2; 0; 0; 0; 0; 0; 10] ++ B "TT2" ++ [0; 0; 3; 0] ++ B "xy" ++ [0] ++ B "music")) /\
  snd (replace_tagset_emplace no_zlib (ex_env RenameOk) (B "a") (ex_new 3) AsNeeded ex_fs) = (Throw MismatchSize, ex_fs).
Proof.
  eexists _, _, _, _. cbv zeta. split; [vm_compute; reflexivity|]. split; [repeat constructor|]. vm_compute. repeat split.
Qed.

(** An extended header with a false synchronisation takes one byte more than its
    size: written in place, the tag overwrites the first byte of the audio --
    whatever the audio is. *)
Definition ex_ext_tag : list anytag :=
  [A23 (mkTag23 None false (Some (mkExt 65504 None true [] [] 0)) 0 [new_frame (title (B "A"))])].
Definition ex_ext_file (audio : bytes) : bytes := B "ID3" ++ [2; 0; 0; 0; 0; 0; 22] ++ repeat 0 22 ++ audio.
Definition ex_ext_fs (audio : bytes) : fsys := [(ex_key, File (ex_ext_file audio))].
Theorem C32_extended_refuted : forall c audio, (forall v r f sz, ~ id3v2_header_at (c :: audio) 0 v r f sz) ->
  tags_from (ex_ext_file (c :: audio)) 0 [mkHead 0 2 0 0 22] /\
  exists ts' w fs', replace_tagset_emplace no_zlib (ex_env RenameOk) (B "a") ex_ext_tag Never (ex_ext_fs (c :: audio)) =
      ([fs'], (Ok ts', fs')) /\
    len w = 33 /\ find_node ex_key fs' = Some (File (w ++ audio)) /\ last w 0 = 65.
Proof. exact emplace_extended. Qed.
Print Assumptions C32_extended_refuted.
Example C32_extended_nontrivial : forall v r f sz, ~ id3v2_header_at (B "music") 0 v r f sz.
Proof. intros v r f sz (z0 & z1 & z2 & z3 & rest & E & _). discriminate E. Qed.

(** ** C33: adjusting paddings *)

(** Adjusting changes nothing but paddings, and changes their sum by exactly the
    difference between the sizes.  Missing: the case [wraps] (refuted below). *)
Theorem C33_exact_partial : forall ts target current ts', target < 2 ^ 63 -> current < 2 ^ 63 ->
  Forall (fun t => any_padding t < 2 ^ 63) ts ->
  adjust_padding_to ts target current = (ts', Ok tt) -> ~ wraps ts target current ->
  Forall2 (fun t t' => unpadded t' = unpadded t) ts ts' /\ total_padding ts' + current = total_padding ts + target.
Proof. exact adjust_exact. Qed.
Print Assumptions C33_exact_partial.
Example C33_exact_nontrivial : exists ts',
  adjust_padding_to (ex_new 5 ++ ex_new 9) 50 53 = (ts', Ok tt) /\ map any_padding ts' = [3; 8] /\ ~ wraps (ex_new 5 ++ ex_new 9) 50 53.
Proof. eexists. split; [reflexivity|]. split; [reflexivity|]. intros (t & r & E & L & F & G). discriminate F. Qed.

(** So the new size of ID3v2.2 and of ID3v2.3 tags (without extended header or
    with a plain one) is the size asked for. *)
Theorem C33_size_partial : forall z m ts n p ts1 target ts2, Forall simple_tag ts ->
  Forall (fun t => any_padding t < 2 ^ 63) ts ->
  sizes z m ts = Ok (n, p, ts1) -> n < 2 ^ 63 -> target < 2 ^ 63 -> ~ wraps ts1 target n ->
  adjust_padding_to ts1 target n = (ts2, Ok tt) ->
  exists p2, sizes z m ts2 = Ok (target, p2, ts2).
Proof. exact adjust_size. Qed.
Print Assumptions C33_size_partial.
Example C33_size_nontrivial : exists ts1 ts2,
  sizes no_zlib AsNeeded (ex_new 5 ++ ex_new 9) = Ok (60, 14, ts1) /\ adjust_padding_to ts1 57 60 = (ts2, Ok tt) /\
  sizes no_zlib AsNeeded ts2 = Ok (57, 11, ts2).
Proof. eexists _, _. do 2 (split; [vm_compute; reflexivity|]). vm_compute. reflexivity. Qed.

(** It refuses in exactly these cases (of a non-empty list). *)
Theorem C33_refuses : forall t r target current, target < 2 ^ 63 -> current < 2 ^ 63 ->
  Forall (fun t => any_padding t < 2 ^ 63) (t :: r) ->
  let d := current - target in let n := len (t :: r) in
  snd (adjust_padding_to (t :: r) target current) <> Ok tt <->
  target < current /\ n <= d /\ (any_padding t < d / n + d mod n \/ Exists (fun x => any_padding x < d / n) r).
Proof. exact adjust_refuses. Qed.
Print Assumptions C33_refuses.
Example C33_refuses_nontrivial : snd (adjust_padding_to (ex_new 5 ++ ex_new 1) 50 54) = Throw NotEnoughPadding.
Proof. reflexivity. Qed.

(** Fewer bytes to take away than there are tags, and the first tag has too
    little padding: it is given a padding close to 2^64. *)
Theorem C33_wraps_refuted : forall t r target current, current < 2 ^ 63 -> Forall (fun t => any_padding t < 2 ^ 63) (t :: r) ->
  wraps (t :: r) target current ->
  exists t', adjust_padding_to (t :: r) target current = (t' :: r, Ok tt) /\ unpadded t' = unpadded t /\
    any_padding t' = 2 ^ 64 - (current - target - any_padding t).
Proof. exact adjust_wraps. Qed.
Print Assumptions C33_wraps_refuted.
Example C33_wraps_nontrivial : wraps (ex_new 0 ++ ex_new 5) 59 60.
Proof. eexists _, _. split; [reflexivity|]. repeat split. Qed.

(** An ID3v2.4 tag counts its padding twice: adjusting misses the size asked for
    by as much as it was off before. *)
Theorem C33_v24_refuted : forall z m t n p t1 target t2, sound_tag (A24 t) -> t4_pad t < 2 ^ 63 ->
  sizes z m [A24 t] = Ok (n, p, [t1]) -> n < 2 ^ 63 -> target < 2 ^ 63 ->
  adjust_padding_to [t1] target n = ([t2], Ok tt) ->
  exists n2 p2, sizes z m [t2] = Ok (n2, p2, [t2]) /\ n2 + n = 2 * target.
Proof. exact adjust_size24. Qed.
Print Assumptions C33_v24_refuted.
Example C33_v24_nontrivial : exists n p t1 t2,
  sizes no_zlib AsNeeded [A24 (mkTag24 None false false None 4 [new_frame (title24 (B "a"))])] = Ok (n, p, [t1]) /\ n = 30 /\
  adjust_padding_to [t1] 40 30 = ([t2], Ok tt) /\
  exists p2, sizes no_zlib AsNeeded [t2] = Ok (50, p2, [t2]).
Proof.
  eexists _, _, _, _. split; [vm_compute; reflexivity|]. split; [reflexivity|]. split; [vm_compute; reflexivity|].
  eexists. vm_compute. reflexivity.
Qed.

(** ** C34: saving *)

(** After a successful save, whatever the strategy and the surroundings, the file
    is the tags -- with the contents asked for -- followed by the same audio, and
    other files are as they were.  Missing: extended headers that are not
    [ext_plain], ID3v2.4, and the case [wraps] (refuted below). *)
Theorem C34_save_partial : forall z e p d nm ts m strat keep fs data l st r fs' n pd ts1, let k := resolve (e_cwd e) p in
  p <> [] -> hd 0 (e_cwd e) = 47 -> dir_path d -> plain_name nm -> absolute (e_cwd e) p = spelled d nm ->
  find_node k fs = Some (File data) -> tags_from data 0 l -> tags_end 0 l < 2 ^ 28 -> tags_end 0 l <= len data ->
  Forall simple_tag ts -> Forall (fun t => any_padding t < 2 ^ 62) ts -> sizes z m ts = Ok (n, pd, ts1) -> n < 2 ^ 28 ->
  ~ wraps ts (tags_end 0 l) n -> e_tmp e <> k -> ~ In 46 (last (e_tmp e) []) ->
  maybe_emplace_tagset z e p ts m strat keep fs = (st, (Ok r, fs')) ->
  map contents r = map contents ts /\
  (exists w, emit_all z m r = (w, Ok r) /\ find_node k fs' = Some (File (w ++ dropN (tags_end 0 l) data))) /\
  forall j, j <> k -> j <> e_tmp e -> ~ is_backup d nm j -> find_node j fs' = find_node j fs.
Proof. exact save_keeps. Qed.
Print Assumptions C34_save_partial.
(** In place with less padding; and by copy. *)
Example C34_save_nontrivial : exists st st2 r r2 fs' fs2 n ts1,
  let ts := [A22 (mkTag22 None false 7 [new_frame (title22 (B "xy"))])] in
  sizes no_zlib AsNeeded ts = Ok (n, 7, ts1) /\ n = 26 /\
  maybe_emplace_tagset no_zlib (ex_env RenameOk) (B "a") ts AsNeeded ReducePaddingEvenly false ex_fs = (st, (Ok r, fs')) /\
  find_node ex_key fs' = Some (File (B "ID3" ++ [2; 0; 0; 0; 0; 0; 10] ++ B "TT2" ++ [0; 0; 3; 0] ++ B "xy" ++ [0] ++ B "music")) /\
  maybe_emplace_tagset no_zlib (ex_env RenameOk) (B "a") ts AsNeeded OnlyWithFullPadding false ex_fs = (st2, (Ok r2, fs2)) /\
  find_node ex_key fs2 = Some (File (B "ID3" ++ [2; 0; 0; 0; 0; 0; 16] ++ B "TT2" ++ [0; 0; 3; 0] ++ B "xy" ++ repeat 0 7 ++ B "music")).
Proof. eexists _, _, _, _, _, _, _, _. vm_compute. repeat split. Qed.

(** In the case [wraps] the save overwrites everything behind the frames of the
    first tag -- all of the audio -- with zeros. *)
Theorem C34_zeroed_refuted : forall z e p ts m keep fs data l n pd t r n1 p1 t1, let k := resolve (e_cwd e) p in
  find_node k fs = Some (File data) -> tags_from data 0 l -> tags_end 0 l < 2 ^ 28 -> tags_end 0 l <= len data -> len data < 2 ^ 62 ->
  Forall simple_tag ts -> Forall (fun t => any_padding t < 2 ^ 62) ts -> sizes z m ts = Ok (n, pd, t :: r) -> n < 2 ^ 28 ->
  wraps (t :: r) (tags_end 0 l) n -> n - pd <= tags_end 0 l ->
  sizes z m [t] = Ok (n1, p1, [t1]) -> n - tags_end 0 l + 10 <= n1 ->
  exists st o fs' front, maybe_emplace_tagset z e p ts m ReducePaddingEvenly keep fs = (st, (o, fs')) /\
    find_node k fs' = Some (File (front ++ repeatN 0 (len data - len front))) /\ len front <= tags_end 0 l.
Proof.
  intros z e p ts m keep fs data l n pd t r n1 p1 t1 k Hk Hl HT HL HD HS HP Hz Hn Hw Hb H1 H2.
  apply (save_wraps z e p ts m keep fs data l n pd t r); try assumption.
  now apply (first_tag_size z m ts n pd t r n1 p1 t1).
Qed.
Print Assumptions C34_zeroed_refuted.
(** Two tags of 23 bytes, the second with a further byte of padding, in place of 46 bytes. *)
Example C34_zeroed_nontrivial : exists n pd t r t1,
  sizes no_zlib AsNeeded (ex_new 0 ++ ex_new 1) = Ok (n, pd, t :: r) /\ n = 47 /\ wraps (t :: r) 46 n /\ n - pd <= 46 /\
  sizes no_zlib AsNeeded [t] = Ok (23, 0, [t1]).
Proof.
  eexists _, _, _, _, _. split; [vm_compute; reflexivity|]. split; [reflexivity|]. split; [|split; [vm_compute; discriminate|vm_compute; reflexivity]].
  eexists _, _. split; [reflexivity|]. vm_compute. auto.
Qed.

(** Saving no tags over existing ones divides by zero. *)
Theorem C34_empty_refuted : forall z e p m strat keep fs data l, let k := resolve (e_cwd e) p in
  find_node k fs = Some (File data) -> tags_from data 0 l -> l <> [] ->
  maybe_emplace_tagset z e p [] m strat keep fs = ([], (UB DivByZero, fs)).
Proof. exact save_empty. Qed.
Print Assumptions C34_empty_refuted.
Example C34_empty_nontrivial : ex_old_heads <> [].
Proof. discriminate. Qed.

(** The same for ID3v2.4 tags as well, but for a gap between the tags and the
    audio: where the tags were written in place, there remain as many bytes of the
    tags that were there as the ID3v2.4 tags have padding, which counts twice.
    Missing: extended headers of ID3v2.3 tags that are not [ext_plain], and the
    case [wraps]. *)
Theorem C34_audio_partial : forall z e p d nm ts m strat keep fs data l st r fs' n pd ts1, let k := resolve (e_cwd e) p in
  p <> [] -> hd 0 (e_cwd e) = 47 -> dir_path d -> plain_name nm -> absolute (e_cwd e) p = spelled d nm ->
  find_node k fs = Some (File data) -> tags_from data 0 l -> tags_end 0 l < 2 ^ 28 -> tags_end 0 l <= len data ->
  Forall sound_tag ts -> Forall (fun t => any_padding t < 2 ^ 62) ts -> sizes z m ts = Ok (n, pd, ts1) -> n < 2 ^ 28 ->
  ~ wraps ts (tags_end 0 l) n -> e_tmp e <> k -> ~ In 46 (last (e_tmp e) []) ->
  maybe_emplace_tagset z e p ts m strat keep fs = (st, (Ok r, fs')) ->
  map contents r = map contents ts /\
  (exists w gap, emit_all z m r = (w, Ok r) /\ find_node k fs' = Some (File (w ++ gap ++ dropN (tags_end 0 l) data)) /\
     (gap = [] \/ gap = dropN (len w) (takeN (tags_end 0 l) data) /\ len gap = v24_padding r)) /\
  forall j, j <> k -> j <> e_tmp e -> ~ is_backup d nm j -> find_node j fs' = find_node j fs.
Proof. exact save_audio. Qed.
Print Assumptions C34_audio_partial.
(** A file that begins with a tag of 27 bytes; a tag with 2 bytes of padding in its
    place: the last two letters of the old title stay. *)
Definition ex_old24 : bytes := B "ID3" ++ [2; 0; 0; 0; 0; 0; 17] ++ B "TT2" ++ [0; 0; 11; 0] ++ B "abcdefghij" ++ B "music".
Definition ex_heads24 : list head := [mkHead 0 2 0 0 17].
Definition ex_fs24 : fsys := [([B "m"], Dir); (ex_key, File ex_old24)].
Definition ex_one24 (title : bytes) (pad : N) : tag24 := mkTag24 None false false None pad [new_frame (title24 title)].
Example ex_old24_tags : tags_from ex_old24 0 ex_heads24 /\ tags_end 0 ex_heads24 = 27 /\ len ex_old24 = 32.
Proof.
  split; [|split; reflexivity]. split; [reflexivity|]. split.
  { exists 0, 0, 0, 17. eexists. split; [reflexivity|]. repeat split; try discriminate; repeat constructor. }
  intros v r f sz (z0 & z1 & z2 & z3 & rest & E & _). discriminate E.
Qed.
Example C34_audio_nontrivial : exists st r fs' n ts1, let ts := [A24 (ex_one24 (B "xy") 2)] in
  Forall sound_tag ts /\ sizes no_zlib AsNeeded ts = Ok (n, 2, ts1) /\ n = 27 /\ v24_padding ts = 2 /\
  maybe_emplace_tagset no_zlib (ex_env RenameOk) (B "a") ts AsNeeded ReducePaddingEvenly false ex_fs24 = (st, (Ok r, fs')) /\
  find_node ex_key fs' = Some (File (B "ID3" ++ [4; 0; 0; 0; 0; 0; 17] ++ B "TIT2" ++ [0; 0; 0; 3; 0; 0; 3] ++ B "xy" ++ [0; 0] ++ B "ij" ++ B "music")).
Proof.
  eexists _, _, _, _, _. cbv zeta. split; [constructor; [exact Logic.I|constructor]|]. vm_compute. repeat split.
Qed.

(** Tags that are all ID3v2.4 tags, and whose size is not exactly that of the tags
    there, can never be fitted in their place: the save is refused whenever
    there is room for them, however much room there is.  Nothing is written. *)
Theorem C34_room_refuted : forall z e p ts m strat keep fs data l n pd ts1, let k := resolve (e_cwd e) p in
  find_node k fs = Some (File data) -> tags_from data 0 l -> tags_end 0 l < 2 ^ 28 -> tags_end 0 l <= len data ->
  Forall sound_tag ts -> Forall (fun t => any_padding t < 2 ^ 62) ts -> sizes z m ts = Ok (n, pd, ts1) -> n < 2 ^ 28 ->
  ts <> [] -> Forall (fun t => is_v24 t = true) ts -> ~ wraps ts (tags_end 0 l) n ->
  n < tags_end 0 l \/ (tags_end 0 l < n /\ n - pd <= tags_end 0 l /\ strat = ReducePaddingEvenly) ->
  exists x, maybe_emplace_tagset z e p ts m strat keep fs = ([], (Throw x, fs)).
Proof. exact save_v24_refused. Qed.
Print Assumptions C34_room_refuted.
(** One byte less than the 27 there are, and two bytes of padding too much. *)
Example C34_room_nontrivial : exists ts1 ts2,
  sizes no_zlib AsNeeded [A24 (ex_one24 (B "x") 2)] = Ok (26, 2, ts1) /\
  sizes no_zlib AsNeeded [A24 (ex_one24 (B "xy") 3)] = Ok (29, 3, ts2) /\
  maybe_emplace_tagset no_zlib (ex_env RenameOk) (B "a") [A24 (ex_one24 (B "x") 2)] AsNeeded OnlyWithFullPadding false ex_fs24 =
    ([], (Throw MismatchSize, ex_fs24)).
Proof. eexists _, _. vm_compute. repeat split. Qed.

(** And where a file is rewritten for a larger ID3v2.4 tag, the header claims as
    many bytes of the audio for the tag as the tag has padding. *)
Theorem C34_swallowed_refuted : forall z e p d nm t m strat keep fs data l st r fs' n pd t1, let k := resolve (e_cwd e) p in
  p <> [] -> hd 0 (e_cwd e) = 47 -> dir_path d -> plain_name nm -> absolute (e_cwd e) p = spelled d nm ->
  find_node k fs = Some (File data) -> tags_from data 0 l -> tags_end 0 l < 2 ^ 28 -> tags_end 0 l <= len data ->
  ext_simple (t4_ext t) -> t4_pad t < 2 ^ 62 -> sizes z m [A24 t] = Ok (n, pd, t1) -> n < 2 ^ 28 ->
  e_tmp e <> k -> ~ In 46 (last (e_tmp e) []) -> tags_end 0 l < n ->
  maybe_emplace_tagset z e p [A24 t] m strat keep fs = (st, (Ok r, fs')) ->
  exists data' f sz, find_node k fs' = Some (File data') /\ id3v2_header_at data' 0 4 0 f sz /\
    dropN (10 + sz) data' = dropN (t4_pad t) (dropN (tags_end 0 l) data).
Proof. exact save_v24_swallows. Qed.
Print Assumptions C34_swallowed_refuted.
(** A tag with 3 bytes of padding in front of "music": what is left is "ic". *)
Example C34_swallowed_nontrivial : exists st r fs' t1,
  sizes no_zlib AsNeeded [A24 (ex_one24 (B "xyz") 3)] = Ok (30, 3, t1) /\
  maybe_emplace_tagset no_zlib (ex_env RenameOk) (B "a") [A24 (ex_one24 (B "xyz") 3)] AsNeeded OnlyWithFullPadding false ex_fs24 = (st, (Ok r, fs')) /\
  find_node ex_key fs' = Some (File (B "ID3" ++ [4; 0; 0; 0; 0; 0; 20] ++ B "TIT2" ++ [0; 0; 0; 4; 0; 0; 3] ++ B "xyz" ++ [0; 0; 0] ++ B "music")).
Proof. eexists _, _, _, _. vm_compute. repeat split. Qed.
