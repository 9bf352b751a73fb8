(** * Properties: the tag clouds of a file after the xtag command (C90). *)
From Verif Require Import Base M_Ints M_Stream M_Id3v1 M_Payload M_Url M_Cloud M_Frame M_Tag22 M_Tag23 M_Tag24 M_Charset M_TextId M_Lookup M_Genres M_Read M_Fs M_Tagset M_Process M_Popm M_Cmds M_Xtag M_Options
  S_Ints S_Id3v1 S_Url S_Cloud S_Read S_Tag S_Tag23 S_Tag24 S_Tagset S_Saved S_Process S_Popm S_Cmds S_Xtag S_Options S_Effect S_EffectX L_Effect2 L_EffectX P_Tagset P_Cmds P_Xtag P_Effect.
#[local] Open Scope N_scope.

(** ** [xtag]: the clouds of the owner hold the items, over what was there or in place of
    it, in a new frame if asked for and there was none; all other frames, the ID3v1 tag
    and the audio are the same.  The items are without NULs and not too many. *)
Theorem C90_clouds_partial : forall z passes e entries w vm o p path d n fs st fs' a v2 v1 l, let k := resolve (e_cwd e) path in
  crc_range z -> (0 < passes)%nat -> file_at e path d n -> 355 <= len a ->
  xtag_options vm = Handled (Ok (o, p)) -> xv_get vm = false -> xv_dry vm = false -> xv_adjust vm = false -> xv_args vm = [path] ->
  xv_xtags vm = Some (items_text l) -> l <> [] -> Forall item_ok l -> fresh_bare [] [] l -> plain_items l -> ~ In 0 (own vm) ->
  in_order z passes k a fs v2 v1 -> scope_fits p v2 -> (forall i t, In (i, t) (with_index v2) -> in_scope p i = true -> clouds_room (own vm) l t) ->
  (forall data l d1 ts u1 s1, find_node k fs = Some (File data) -> tags_from data 0 l ->
     process_tagset (xtag_processor w o) p v2 v1 [] = Ok (d1, ts, u1, s1) -> can_be_written z p (tags_end 0 l) ts) ->
  run_xtag z passes e entries w vm fs = (st, (Ok 0, fs')) -> moderate k fs' ->
  exists v2' v1', in_order z passes k a fs' v2' v1' /\ Forall2 (clouds_read p (own vm) (xv_merge vm) (xv_frame vm) l) (with_index v2) v2' /\ same_v1 v1 v1'.
Proof. exact xtag_command_once. Qed.
Print Assumptions C90_clouds_partial.

(** ** [xtag --merge] run again and again, with other items each time: as if all had been
    merged at once. *)
Theorem C90_merges_partial : forall z passes e entries w vm path d n a v2 v1 l ls fs fs', let k := resolve (e_cwd e) path in
  crc_range z -> (0 < passes)%nat -> file_at e path d n -> 355 <= len a ->
  xv_get vm = false -> xv_dry vm = false -> xv_adjust vm = false -> xv_args vm = [path] -> xv_merge vm = true -> xv_backups vm = true -> given (xv_tag vm) = [] -> ~ In 0 (own vm) ->
  Forall (fun l => l <> [] /\ Forall item_ok l /\ fresh_bare [] [] l /\ plain_items l) (l :: ls) -> Forall (clouds_room (own vm) (concat (l :: ls))) v2 ->
  in_order z passes k a fs v2 v1 ->
  one_by_one (map (fun l => run_xtag z passes e entries w (to_put vm l)) (l :: ls)) (moderate k) fs fs' ->
  exists v2' v1', in_order z passes k a fs' v2' v1' /\ Forall2 (clouds_put (own vm) true (xv_frame vm) (concat (l :: ls))) v2 v2' /\ same_v1 v1 v1'.
Proof.
  intros z passes e entries w vm path d n a v2 v1 l ls fs fs' k Hz Hp FA LA VG VD VA VR VM VB VT OW FL RM IO H.
  exact (xtag_merges z passes e entries w vm path d n a v2 v1 l ls fs fs' Hz Hp FA LA VG VD VA VR VM VB VT OW FL RM IO H).
Qed.
Print Assumptions C90_merges_partial.

(** A file with clouds of two owners; twice something is merged into those of one. *)
Definition ex_clouds2 : list anytag :=
  [A23 (mkTag23 (Some false) false None 0 [new_frame (mkFrame (B "TIT2") no_flags (BText (mkText 0 (B "Song")))); new_frame (mkFrame (B "XTAG") no_flags (BCloud ex_cloud_me));
                                           new_frame (mkFrame (B "XTAG") no_flags (BCloud ex_cloud_you))])].
Definition ex_cloudy : fsys := [([B "m"], Dir); ([B "m"; B "f"], File (B "ID3" ++ [3; 0; 0; 0; 0; 0; 73] ++ ex_xbody ++ ex_audio ++ ex_v1))].
Definition ex_more : list item := [mkItem (B "mood") [B "glad"] (B "mood") [B "glad"]].
Definition ex_merge : xtag_vm := mkXtagVm false false true true false false false true (Some (B "me")) None None [B "f"].
Example ex_cloudy_order : in_order no_zlib 3 ex_fs_key ex_audio ex_cloudy ex_clouds2 (Some ex_trailing).
Proof.
  exists (B "ID3" ++ [3; 0; 0; 0; 0; 0; 73] ++ ex_xbody ++ ex_audio ++ ex_v1), [mkHead 0 3 0 0 73]. split; [reflexivity|]. split; [vm_compute; reflexivity|]. split; [discriminate|].
  split; [|split; [|split]].
  - split; [split; [reflexivity|]; split|].
    + exists 0, 0, 0, 73. eexists. split; [vm_compute; reflexivity|]. repeat split; try discriminate; repeat constructor.
    + intros v r f sz (z0 & z1 & z2 & z3 & rest & E & _). apply (f_equal (fun l => nth 0 l 0)) in E. vm_compute in E. discriminate E.
    + split; [vm_compute; discriminate|]. exists ex_v1. split; vm_compute; reflexivity.
  - destruct ex_in_order as (? & ? & _ & _ & _ & _ & X & _). exact X.
  - constructor; [|constructor]. split; [|split; [repeat constructor|split; [reflexivity|discriminate]]]. split; [|exact Logic.I].
    assert (W : forall c, wf_body V23 (BCloud c) -> wf_frame V23 (mkFrame (B "XTAG") no_flags (BCloud c))).
    { intros c W. apply (cloud_frame_good V23 _ c); auto. }
    apply Forall_forall. intros c I. cbn [t3_frames In] in I. destruct I as [<-|[<-|[<-|[]]]].
    + split; [|split; [exists false, false, false; reflexivity|discriminate]]. repeat split; discriminate.
    + split; [apply W; split; [|split; [|split]]|split; [exists false, false, false; reflexivity|discriminate]].
      * split; repeat constructor.
      * vm_compute. intuition discriminate.
      * repeat constructor; vm_compute; intuition discriminate.
      * repeat constructor.
    + split; [apply W; split; [|split; [|split]]|split; [exists false, false, false; reflexivity|discriminate]].
      * split; [repeat constructor|]. repeat constructor.
      * vm_compute. intuition discriminate.
      * repeat constructor; vm_compute; intuition discriminate.
      * repeat constructor.
  - constructor; [discriminate|constructor].
Qed.
Example C90_merges_nontrivial : exists fs',
  Forall (fun l => l <> [] /\ Forall item_ok l /\ fresh_bare [] [] l /\ plain_items l) [ex_items; ex_more] /\ Forall (clouds_room (own ex_merge) (concat [ex_items; ex_more])) ex_clouds2 /\
  ~ In 0 (own ex_merge) /\
  one_by_one (map (fun l => run_xtag no_zlib 3 (ex_env RenameOk) (fun _ => []) ex_world (to_put ex_merge l)) [ex_items; ex_more]) (moderate ex_fs_key) ex_cloudy fs' /\
  match find_node ex_fs_key fs' with Some (File data) => map f_body (shown (nth 0 (fst (ex_set data)) (A23 (mkTag23 None false None 0 [])))) | _ => [] end =
    [BText (mkText 0 (B "Song")); BCloud (mkCloud (B "me") [(B "live", []); (B "mood", [B "calm"; B "glad"; B "wild"])]); BCloud ex_cloud_you].
Proof.
  set (c1 := run_xtag no_zlib 3 (ex_env RenameOk) (fun _ => []) ex_world (to_put ex_merge ex_items)).
  set (c2 := run_xtag no_zlib 3 (ex_env RenameOk) (fun _ => []) ex_world (to_put ex_merge ex_more)).
  set (fs1 := snd (snd (c1 ex_cloudy))). exists (snd (snd (c2 fs1))).
  destruct ex_items_ok as (A1 & A2 & A3 & _).
  assert (D : forall x, (forall c, In c x -> c <> 37) -> denotes any x x).
  { induction x as [|c x IH]; intros H; [constructor|]. apply den_lit; [exact Logic.I|apply H; left; reflexivity|apply IH; intros d M; apply H; right; exact M]. }
  split; [|split; [|split; [|split]]].
  - constructor; [|constructor; [|constructor]].
    + split; [exact A1|]. split; [exact A2|]. split; [exact A3|]. repeat constructor; vm_compute; intuition discriminate.
    + split; [discriminate|]. split; [|split].
      * constructor; [|constructor]. split; [apply D; vm_compute; intuition (subst; discriminate)|]. split; [vm_compute; intuition discriminate|]. split; [vm_compute; intuition discriminate|].
        split; [constructor; [apply D; vm_compute; intuition (subst; discriminate)|constructor]|]. constructor; [|constructor]. vm_compute; intuition discriminate.
      * apply fresh_cons; [discriminate|constructor].
      * repeat constructor; vm_compute; intuition discriminate.
  - constructor; [|constructor]. split; [reflexivity|]. intros f c k s I X J. cbn in I. destruct I as [<-|[<-|[<-|[]]]].
    + destruct X as (X & _). discriminate X.
    + destruct X as (_ & X & _). cbn [f_body] in X. injection X as <-. destruct J as [J|[]]. injection J as <- <-. reflexivity.
    + destruct X as (_ & X & [Y|Y]); [discriminate Y|]. cbn [f_body] in X. injection X as <-. discriminate Y.
  - vm_compute. intuition discriminate.
  - cbn [map one_by_one]. fold c1 c2. exists (fst (c1 ex_cloudy)), fs1. split; [apply ran; vm_compute; reflexivity|]. split; [apply moderate_in; vm_compute; reflexivity|].
    exists (fst (c2 fs1)), (snd (snd (c2 fs1))). split; [apply ran; vm_compute; reflexivity|]. split; [apply moderate_in; vm_compute; reflexivity|reflexivity].
  - vm_compute. reflexivity.
Qed.
Example C90_clouds_nontrivial : exists o p st fs', xtag_options (to_put ex_merge ex_items) = Handled (Ok (o, p)) /\ scope_fits p ex_clouds2 /\ p_backups p = true /\
  run_xtag no_zlib 3 (ex_env RenameOk) (fun _ => []) ex_world (to_put ex_merge ex_items) ex_cloudy = (st, (Ok 0, fs')) /\ moderate ex_fs_key fs'.
Proof.
  eexists _, _, (fst (run_xtag _ _ _ _ _ _ _)), (snd (snd (run_xtag _ _ _ _ _ _ _))). split; [reflexivity|]. split; [exact Logic.I|]. split; [reflexivity|].
  split; [apply ran; vm_compute; reflexivity|]. apply moderate_in. vm_compute. reflexivity.
Qed.
