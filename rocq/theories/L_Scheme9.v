(** * Examples for C82. *)
From Verif Require Import Base M_Stream M_Id3v1 M_Charset M_Payload M_Cloud M_Frame M_Tag23 M_Read M_Fs M_Process M_Cmds M_Lang M_Scheme M_Scheme2
  S_Charset S_Tag23 S_Cmds S_Scheme2 S_Scheme3 S_Scheme4 L_Scheme8.
#[local] Open Scope N_scope.

Definition small (n : N) (b : bytes) : bool := forallb (fun c => c <? n) b.
Definition ex_conv (be16 : bool) : iconv_t := fun src dst _ b =>
  match src with
  | E_UTF_16 => if be16 then match b with [0; 72; 0; 105] => Some [228; 160; 128; 230; 164; 128] | _ => None end else None
  | E_UTF_16BE => match b with [0; 72; 0; 105] => Some (B "Hi") | _ => None end
  | _ => if small 128 b then Some b else if small 256 b then match src with E_ISO_8859_1 => Some (latin_utf8 b) | _ => None end else None
  end.
Definition ex_with (be16 : bool) : guile := mkGuile (ex_conv be16) (small 248) (fun _ => None) (fun s => Some s) (fun s => Some s) (mkLenv None None None).
Definition ex_G : guile := ex_with false.
Definition ex_le : guile := ex_with true.
Lemma small_iff n b : small n b = true <-> Forall (fun c => c < n) b.
Proof. unfold small. rewrite forallb_forall, Forall_forall. split; intros H x Hx; apply N.ltb_lt; auto. Qed.
Lemma conv_small k e d r b out : ex_conv k e d r b = Some out -> Forall (fun c => c < 248) out.
Proof.
  intros H. assert (X : (out = [228; 160; 128; 230; 164; 128] \/ out = B "Hi") \/ small 128 b = true /\ out = b \/ small 256 b = true /\ out = latin_utf8 b).
  { unfold ex_conv in H. destruct e; try (destruct (small 128 b) eqn:E1; [right; left; split; congruence|]; destruct (small 256 b) eqn:E2; [|discriminate]; first [right; right; split; congruence|discriminate]).
    - destruct k; [|discriminate H]. left. left. repeat match type of H with match ?x with _ => _ end = _ => destruct x; try discriminate H end. congruence.
    - left. right. repeat match type of H with match ?x with _ => _ end = _ => destruct x; try discriminate H end. congruence. }
  destruct X as [[->| ->]|[[H1 ->]|[H1 ->]]].
  - apply small_iff. reflexivity.
  - apply small_iff. reflexivity.
  - apply small_iff in H1. revert H1. apply Forall_impl. intros; lia.
  - apply small_iff in H1. clear H. unfold latin_utf8. induction H1 as [|c l Hc H1 IH]; [constructor|]. cbn [map concat]. apply Forall_app. split; [|exact IH].
    assert (D : c / 64 < 4) by (apply N.div_lt_upper_bound; lia). pose proof (N.mod_lt c 64 ltac:(lia)).
    destruct (c <? 128) eqn:E; [apply N.ltb_lt in E; repeat constructor; lia|]. repeat constructor; lia.
Qed.
Lemma ex_gives k : gives_utf8 (ex_with k).
Proof.
  split.
  - intros e r b out H. cbn [g_ic ex_with] in H. apply conv_small in H. split; [exact H|]. intros m s (p & q & E & _) [_ F]. cbn [g_utf8 ex_with]. apply small_iff.
    assert (M : Forall (fun c => c < 248) m). { rewrite E in H. apply Forall_app in H as [_ H]. now apply Forall_app in H as [H _]. }
    destruct F as [<-|(t & ->)]; [exact M|]. now apply Forall_app in M as [M _].
  - intros s H. cbn [g_utf8 ex_with]. apply small_iff. revert H. apply Forall_impl. intros; lia.
Qed.

Definition ex_head (n : N) : bytes := B "ID3" ++ [3; 0; 0; 0; 0; 0; n].
Definition ex_fr (id : bytes) (b : bytes) : bytes := id ++ [0; 0; 0; len b; 0; 0] ++ b.
Definition ex_body : bytes :=
  ex_fr (B "TIT2") ([0] ++ B "caf" ++ [233]) ++ ex_fr (B "TPE1") ([7] ++ B "x") ++ ex_fr (B "POPM") (B "a@b" ++ [0; 200; 1; 2]) ++
  ex_fr (B "COMM") ([0] ++ B "eng" ++ [0] ++ B "hi") ++ ex_fr (B "WXYZ") [1; 2; 3].
Definition ex_data : bytes := ex_head (len ex_body + 3) ++ ex_body ++ [0; 0; 0] ++ B "audio".
Definition ex_files : fsys := [([B "f"], File ex_data)].
Definition ex_fs : list frame :=
  [mkFrame (B "TIT2") no_flags (BText (mkText 0 (B "caf" ++ [233]))); mkFrame (B "TPE1") no_flags (BText (mkText 7 (B "x")));
   mkFrame (B "POPM") no_flags (BPopm (mkPopm (B "a@b") 200 [1; 2]));
   mkFrame (B "COMM") no_flags (BComm (mkComm 1 (Some 0) (Some (B "eng")) [] (B "hi"))); mkFrame (B "WXYZ") no_flags (BUnknown [1; 2; 3])].
Definition ex_marks : list scm := [SBool true; SBool true; SBool false; SNull].
Definition ex_objects : list scm :=
  [SObj CText (SSym (B "title-frame") :: ex_marks ++ [SStr (B "caf" ++ [195; 169])]);
   SObj CUnk (SSym (B "unknown-frame") :: ex_marks ++ [SStr (B "TPE1"); SBytes (B "TPE1" ++ [0; 0; 0; 2; 0; 0; 7; 120])]);
   SObj CPopm (SSym (B "popm-frame") :: ex_marks ++ [SStr (B "a@b"); SInt 200; SInt 258]);
   SObj CComment (SSym (B "comment-frame") :: ex_marks ++ [SStr (B "eng"); SStr []; SStr (B "hi")]);
   SObj CUnk (SSym (B "unknown-frame") :: ex_marks ++ [SStr (B "WXYZ"); SBytes (B "WXYZ" ++ [0; 0; 0; 3; 0; 0; 1; 2; 3])])].
Lemma ex_complete : Forall (complete V23) ex_fs.
Proof.
  assert (U : forall n b, ~ unmarked_be V23 n b) by (intros n b [K _]; discriminate K). unfold ex_fs.
  apply Forall_cons; [apply U|]. apply Forall_cons; [apply U|]. apply Forall_cons; [split; [apply small_iff; reflexivity|discriminate]|].
  apply Forall_cons; [split; [eexists; reflexivity|]; eexists; split; [reflexivity|]; split; apply U|]. apply Forall_cons; [exact I|constructor].
Qed.
Lemma ex_frames_l : Forall (of_its_kind V23) ex_fs /\ Forall (complete V23) ex_fs /\ gmap (de ex_G no_zlib V23 false) (map new_frame ex_fs) = GOk ex_objects.
Proof.
  split; [|split; [exact ex_complete|vm_compute; reflexivity]]. unfold ex_fs. repeat (apply Forall_cons; [vm_compute; reflexivity|]). constructor.
Qed.
Definition ex_tag : anytag := A23 (mkTag23 (Some false) false None 3 (map new_frame ex_fs)).
Lemma ex_file_l : gives_utf8 ex_G /\ to_locale ex_G (SStr (B "f")) = GOk (B "f") /\ find_node (resolve (B "/") (B "f")) ex_files = Some (File ex_data) /\
  exists t s, read_all_id3v2 no_zlib 3 (open_file ex_data goodbit) = (Ok [t], s) /\ Forall (complete (any_version t)) (shown t) /\ padding t < 2 ^ 32 /\
  read_tagset_scm ex_G no_zlib 3 (B "/") ex_files (SStr (B "f")) = GOk (slist [slist [SObj CTag [SBool false; slist ex_objects; SInt 3]; SInt 3; SBool false]]).
Proof.
  split; [apply ex_gives|]. split; [reflexivity|]. split; [reflexivity|]. exists ex_tag, (snd (read_all_id3v2 no_zlib 3 (open_file ex_data goodbit))).
  split; [vm_compute; reflexivity|]. split; [exact ex_complete|]. split; [reflexivity|]. vm_compute. reflexivity.
Qed.
Definition ex_cloudy : bytes :=
  let b := ex_fr (B "TIT2") ([0] ++ B "caf") ++ ex_fr (B "XTAG") ([1; 255; 254; 0] ++ B "a" ++ [0; 0; 0; 0; 2] ++ B "b" ++ [0]) in ex_head (len b) ++ b ++ B "audio".
