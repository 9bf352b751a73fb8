(** * C74: tags that have been saved are what is read from the file afterwards. *)
From Verif Require Import Base M_Ints M_Unsync M_Stream M_Payload M_Frame M_Tag22 M_Tag23 M_Tag24 M_Read M_Fs M_Tagset
  S_Unsync S_Tag S_Tag22 S_Tag23 S_Tag24 S_Stream S_Read S_Tagset S_Saved L_Saved P_Tagset.

(** Any number of tags of any versions, written one after another in front of
    something that does not begin like a tag, are found again: as many, in order,
    with the same contents. *)
Theorem C74_written_partial : forall z passes m ts w ts' rest x, crc_range z -> (0 < passes)%nat -> Forall (storable z m) ts ->
  emit_all z m ts = (w, Ok ts') -> len w < 2 ^ 64 -> (forall v r f sz, ~ id3v2_header_at rest 0 v r f sz) ->
  exists ts'' s', read_all_id3v2 z passes (mkIs (w ++ rest) 0 x 0) = (Ok ts'', s') /\
    Forall2 same_tag ts ts'' /\ Forall2 same_padding ts ts'' /\ Forall2 (marked m) ts ts''.
Proof. exact saved_back. Qed.
Print Assumptions C74_written_partial.
(** Three tags, one of each version, in one of which there is something to
    unsynchronise. *)
Definition ex_three : list anytag :=
  [A22 (mkTag22 None false 3 [new_frame (title22 (B "abc"))]);
   A23 (mkTag23 None true None 5 (map new_frame [title [255; 224; 65]; mkFrame (B "PCNT") no_flags (BCount [1; 0; 0; 255])]));
   A24 (mkTag24 None false false (Some (mkExt24 7 true None None)) 0 [new_frame (title24 (B "xyz"))])].
Example ex_three_storable : Forall (storable no_zlib AsNeeded) ex_three.
Proof.
  constructor; [|constructor; [|constructor; [|constructor]]].
  - split.
    + repeat constructor; cbn; try discriminate; auto.
    + right. constructor; [|constructor]. intros w H. apply Ok_inj in H. subst w. split; [repeat constructor|].
      intros i. do 11 (destruct i as [|i]; [reflexivity|]). now destruct i.
  - split; [|split; [repeat constructor|split; [reflexivity|discriminate]]]. split; [|exact Logic.I].
    repeat constructor; cbn; try discriminate; try (exists false, false, false; reflexivity); auto.
  - split; [|split; [repeat constructor|]]; [repeat constructor; cbn; try discriminate; try (exists false, false, false, false; reflexivity); auto|].
    split; [|repeat split]. right. constructor; [|constructor]. intros w H. apply Ok_inj in H. subst w. split; [repeat constructor|].
    intros i. do 15 (destruct i as [|i]; [reflexivity|]). now destruct i.
Qed.
Example C74_written_nontrivial : Forall (storable no_zlib AsNeeded) ex_three /\
  exists w ts', emit_all no_zlib AsNeeded ex_three = (w, Ok ts') /\ len w = 97.
Proof. split; [exact ex_three_storable|]. eexists _, _. vm_compute. repeat split. Qed.

(** Through the file system: after a successful rewrite by copy, with or without a
    backup, and whether or not the temporary file could be renamed. *)
Theorem C74_rewrite_partial : forall z passes e p d n ts m keep w o fs data l r fs' x, let k := resolve (e_cwd e) p in
  crc_range z -> (0 < passes)%nat ->
  p <> [] -> hd 0 (e_cwd e) = 47 -> dir_path d -> plain_name n -> absolute (e_cwd e) p = spelled d n ->
  find_node k fs = Some (File data) -> tags_from data 0 l -> emit_all z m ts = (w, o) -> len w < 2 ^ 64 ->
  ~ In 46 (last (e_tmp e) []) -> e_tmp e <> k -> Forall (storable z m) ts ->
  snd (replace_tagset_copy z e p ts m keep fs) = (Ok r, fs') ->
  exists data' ts'' s', find_node k fs' = Some (File data') /\
    read_all_id3v2 z passes (mkIs data' 0 x 0) = (Ok ts'', s') /\ Forall2 same_tag ts ts'' /\ Forall2 same_padding ts ts'' /\ Forall2 (marked m) ts ts''.
Proof. exact copy_back. Qed.
Print Assumptions C74_rewrite_partial.
Example C74_rewrite_nontrivial : Forall (storable no_zlib AsNeeded) ex_three /\ exists w o r fs',
  emit_all no_zlib AsNeeded ex_three = (w, o) /\ len w < 2 ^ 64 /\
  snd (replace_tagset_copy no_zlib (ex_env RenameXdev) (B "a") ex_three AsNeeded true ex_fs) = (Ok r, fs').
Proof.
  split; [exact ex_three_storable|]. eexists _, _, _, _. split; [vm_compute; reflexivity|]. split; [reflexivity|].
  vm_compute. reflexivity.
Qed.

(** And after a successful save, whatever the strategy.  The paddings are those
    that the save has left in the tags.  Missing, as in C34: extended headers that
    are not [ext_plain], the case [wraps], and ID3v2.4 tags that the save gives padding; that happens only
    where they are saved together with others (C74_unmixed). *)
Theorem C74_save_partial : forall z passes e p d nm ts m strat keep fs data l st r fs' n pd ts1 x, let k := resolve (e_cwd e) p in
  crc_range z -> (0 < passes)%nat ->
  p <> [] -> hd 0 (e_cwd e) = 47 -> dir_path d -> plain_name nm -> absolute (e_cwd e) p = spelled d nm ->
  find_node k fs = Some (File data) -> tags_from data 0 l -> tags_end 0 l < 2 ^ 28 -> tags_end 0 l <= len data ->
  Forall (fun t => any_padding t < 2 ^ 62) ts -> sizes z m ts = Ok (n, pd, ts1) -> n < 2 ^ 28 ->
  ~ wraps ts (tags_end 0 l) n -> e_tmp e <> k -> ~ In 46 (last (e_tmp e) []) -> Forall (storable z m) ts ->
  maybe_emplace_tagset z e p ts m strat keep fs = (st, (Ok r, fs')) -> v24_padding r = 0 ->
  exists data' ts'' s', find_node k fs' = Some (File data') /\
    read_all_id3v2 z passes (mkIs data' 0 x 0) = (Ok ts'', s') /\ Forall2 same_tag ts ts'' /\ Forall2 same_padding r ts'' /\ Forall2 (marked m) ts ts''.
Proof.
  intros z passes e p d nm ts m strat keep fs data l st r fs' n pd ts1 x k A1 A2 A3 A4 A5 A6 A7 A8 A9 A10 A11 A12 A13 A14 A15 A16 A17 A18 A19 A20.
  destruct (save_back z passes e p d nm ts m strat keep fs data l st r fs' n pd ts1 x A1 A2 A3 A4 A5 A6 A7 A8 A9 A10 A11 A12 A13 A14 A15 A16 A17 A18 A19 A20)
    as (data' & ts'' & s' & H1 & H2 & H3 & H4 & H5 & _).
  exists data', ts'', s'. auto.
Qed.
Print Assumptions C74_save_partial.
(** The condition holds where the tags are all ID3v2.4 tags, or none is. *)
Theorem C74_unmixed : forall z e p d nm ts m strat keep fs data l st r fs' n pd ts1, let k := resolve (e_cwd e) p in
  p <> [] -> hd 0 (e_cwd e) = 47 -> dir_path d -> plain_name nm -> absolute (e_cwd e) p = spelled d nm ->
  find_node k fs = Some (File data) -> tags_from data 0 l -> tags_end 0 l < 2 ^ 28 -> tags_end 0 l <= len data ->
  Forall (storable z m) ts -> Forall (fun t => any_padding t < 2 ^ 62) ts -> sizes z m ts = Ok (n, pd, ts1) -> n < 2 ^ 28 ->
  ~ wraps ts (tags_end 0 l) n -> e_tmp e <> k -> ~ In 46 (last (e_tmp e) []) ->
  Forall simple_tag ts \/ Forall (fun t => is_v24 t = true) ts ->
  maybe_emplace_tagset z e p ts m strat keep fs = (st, (Ok r, fs')) -> v24_padding r = 0.
Proof. exact unmixed_padding. Qed.
Print Assumptions C74_unmixed.
(** Two ID3v2.4 tags, saved by rewriting the file. *)
Definition ex_two24 : list anytag := map (fun s => A24 (mkTag24 None false false None 0 [new_frame (title24 s)])) [B "xyz"; B "a"].
Example C74_unmixed_nontrivial : Forall (fun t => is_v24 t = true) ex_two24 /\ exists n pd ts1 st r fs',
  sizes no_zlib Never ex_two24 = Ok (n, pd, ts1) /\ n = 46 /\
  maybe_emplace_tagset no_zlib (ex_env RenameOk) (B "a") ex_two24 Never ReducePaddingEvenly false ex_fs = (st, (Ok r, fs')).
Proof.
  split; [repeat constructor|]. eexists _, _, _, _, _, _. split; [vm_compute; reflexivity|]. split; [reflexivity|]. vm_compute. reflexivity.
Qed.
Definition ex_short : list anytag := [A22 (mkTag22 None false 7 [new_frame (title22 (B "xy"))])].
Example C74_save_nontrivial : Forall (storable no_zlib AsNeeded) ex_short /\ Forall simple_tag ex_short /\
  exists n pd ts1 st r fs', sizes no_zlib AsNeeded ex_short = Ok (n, pd, ts1) /\ n = 26 /\
  maybe_emplace_tagset no_zlib (ex_env RenameOk) (B "a") ex_short AsNeeded ReducePaddingEvenly false ex_fs = (st, (Ok r, fs')) /\
  map any_padding r = [1].
Proof.
  split; [|split; [repeat constructor|eexists _, _, _, _, _, _]].
  2: { split; [vm_compute; reflexivity|]. split; [reflexivity|]. split; [vm_compute; reflexivity|reflexivity]. }
  constructor; [|constructor]. split.
  - repeat constructor; cbn; try discriminate; auto.
  - right. constructor; [|constructor]. intros w H. apply Ok_inj in H. subst w. split; [repeat constructor|].
    intros i. do 10 (destruct i as [|i]; [reflexivity|]). now destruct i.
Qed.
(** A tag with an extended header. *)
Definition ex_extended : list anytag :=
  [A23 (mkTag23 None false (Some (mkExt 4 None true [] [] 0)) 4 [new_frame (mkFrame (B "TIT2") no_flags (BText (mkText 0 (B "xy"))))])].
Example C74_save_ext_nontrivial : Forall (storable no_zlib AsNeeded) ex_extended /\ Forall simple_tag ex_extended /\
  exists n pd ts1 st r fs', sizes no_zlib AsNeeded ex_extended = Ok (n, pd, ts1) /\ n = 37 /\
  maybe_emplace_tagset no_zlib (ex_env RenameOk) (B "a") ex_extended AsNeeded ReducePaddingEvenly false ex_fs = (st, (Ok r, fs')) /\
  find_node ex_key fs' = Some (File (B "ID3" ++ [3; 0; 64; 0; 0; 0; 27] ++ [0; 0; 0; 6; 0; 0; 0; 0; 0; 4] ++
    B "TIT2" ++ [0; 0; 0; 3; 0; 0; 0] ++ B "xy" ++ [0; 0; 0; 0] ++ B "music")).
Proof.
  assert (P : ext_plain (Some (mkExt 4 None true [] [] 0))).
  { split; [reflexivity|]. split; [|discriminate]. intros i. do 10 (destruct i as [|i]; [reflexivity|]). now destruct i. }
  split; [|split; [constructor; [exact P|constructor]|eexists _, _, _, _, _, _]].
  2: { split; [vm_compute; reflexivity|]. split; [reflexivity|]. split; [vm_compute; reflexivity|reflexivity]. }
  constructor; [|constructor]. split; [|split; [repeat constructor|split; [exact P|discriminate]]]. split.
  - repeat constructor; cbn; try discriminate; auto. exists false, false, false. reflexivity.
  - split; [reflexivity|discriminate].
Qed.
