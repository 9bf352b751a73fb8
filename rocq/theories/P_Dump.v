(** * Theorems: the dump command (C84). *)
From Verif Require Import Base M_Ints M_Stream M_Id3v1 M_Payload M_Cloud M_Frame M_Tag22 M_Tag23 M_Tag24 M_Charset M_Lookup M_Mp3 M_Track M_Read
  M_Tagset M_Process M_Cmds M_Csv M_Genres M_Report M_Dump S_Ints S_Lookup S_Cmds S_Csv S_JsonTag S_Lang S_Read S_Tag23 S_M3u S_Dump L_Dump P_Cmds P_Dirent.
#[local] Open Scope N_scope.

Definition ex_ds : dstyle := mkDs 2 true E_ISO_8859_1.
Definition ex_all : parts := mkParts false false false.
Definition ex_sum (b : bytes) : bytes := [len b].
Definition ex_text (id s : bytes) : bytes := id ++ [0; 0; 0; len s + 1; 0; 0; 0] ++ s.
Definition ex_frame4 (id s : bytes) : bytes := id ++ [0; 0; 0; len s; 0; 0] ++ s.
Definition ex_v2 (v : N) (b : bytes) : bytes := B "ID3" ++ [v; 0; 0; 0; 0; len b / 128; len b mod 128] ++ b.
Definition ex_body : bytes := ex_text (B "TPE1") (B "Band") ++ ex_text (B "TIT2") (B "Song") ++
  ex_frame4 (B "COMM") ([0] ++ B "eng" ++ [0] ++ B "fine") ++ ex_frame4 (B "PCNT") [0; 0; 1; 2] ++ ex_frame4 (B "PRIV") (B "me" ++ [0; 65; 1; 66]) ++
  ex_frame4 (B "GEOB") [1; 2] ++ [0; 0; 0; 0; 0].
Definition ex_dfile (b : bytes) : dfile := mkDf (B "a.mp3") (B "Thu") b.
Definition ex_old : bytes := B "TAG" ++ B "Song" ++ repeat 0 26 ++ B "Band" ++ repeat 0 26 ++ repeat 0 30 ++ B "1999" ++ repeat 0 28 ++ [0; 7; 9].
Definition ex_mp3 : bytes := ex_v2 3 ex_body ++ [1; 2; 3] ++ ex_old.
Definition ex_said : list bytes := map B
  ["""a.mp3"":"; "Last Modified: Thu"; "  ID3v2.3(.0) Tag:"; "  96 bytes, synchronised"; "  flags: 0x00"; "  Band - Song";
   "  <no album>, <no year>"; "  TPE1: Band"; "  TIT2: Song"; "COMM (eng, <no description>):"; "fine"; "  PCNT: 258";
   "  PRIV (me): 3 bytes beginning with:"; "  41 01 42  >A.B<"; "frame GEOB (2 bytes)"; "  5 bytes of padding"; "  3 bytes of track data:";
   "  MD5: 03"; "  ID3v1.1: Band - Song"; "   (track 7), 1999"; "  "; "  Metal"; ""]%string.
Example ex_dumped : dump_file ex_ds no_zlib 3 ex_sum ex_world ex_all (ex_dfile ex_mp3) = (unlines ex_said, Ok true).
Proof. vm_compute. reflexivity. Qed.

(** ** C84: what a dump says *)

(** Whatever the file, the settings, the parts asked for and the conversions: if the
    file is dumped without an error then the output is the lines for it and nothing
    else: its path and time, then for each ID3v2 tag at its beginning, in order,
    the summary, every frame in order with its contents, and the padding, then the
    number of bytes of the track and their digest, and then the ID3v1 tag, of
    those what was asked for. *)
Theorem C84_dump : forall d z passes md5 w p f s, dump_file d z passes md5 w p f = (s, Ok true) ->
  exists ls, file_lines (sin d) (ds_expand d) (ds_v1enc d) z passes md5 (w_ic w) (p_v2 (all_parts p)) (p_track (all_parts p)) (p_v1 (all_parts p)) f ls /\
    s = unlines ls.
Proof. exact dump_file_told. Qed.
Print Assumptions C84_dump.
Example C84_dump_nontrivial : exists s, dump_file ex_ds no_zlib 3 ex_sum ex_world ex_all (ex_dfile ex_mp3) = (s, Ok true) /\ lines s = ex_said.
Proof. eexists. split; [exact ex_dumped|]. vm_compute. reflexivity. Qed.

(** What is asked for: the parts named, or everything if none is.  ([all_parts] of
    the theorems on dumps is exactly that.) *)
Theorem C84_parts : forall p, let none := p_v2 p = false /\ p_track p = false /\ p_v1 p = false in
  (p_v2 (all_parts p) = true <-> p_v2 p = true \/ none) /\
  (p_track (all_parts p) = true <-> p_track p = true \/ none) /\
  (p_v1 (all_parts p) = true <-> p_v1 p = true \/ none).
Proof.
  intros [[] [] []]; cbn; repeat split; intros H; try reflexivity; try (now left); try (right; repeat split; reflexivity);
    destruct H as [H|(H1 & H2 & H3)]; congruence.
Qed.
Print Assumptions C84_parts.
Example C84_parts_nontrivial : all_parts (mkParts false false true) = mkParts false false true /\ all_parts ex_all = mkParts true true true.
Proof. split; reflexivity. Qed.

(** A reader that splits at line ends gets those lines back, unless one of them
    holds a line end itself. *)
Theorem C84_lines : forall ls, Forall (fun l => ~ In 10 l) ls -> lines (unlines ls) = ls.
Proof. exact lines_unlines. Qed.
Print Assumptions C84_lines.
Example C84_lines_nontrivial : forallb (fun l => negb (existsb (N.eqb 10) l)) ex_said = true.
Proof. vm_compute. reflexivity. Qed.

(** Conversely, a file that can be read and of which every part asked for can be told
    is dumped without an error. *)
Theorem C84_dumped : forall d z passes md5 w p f r ls, dump_read z passes md5 (df_data f) = Ok r ->
  file_lines (sin d) (ds_expand d) (ds_v1enc d) z passes md5 (w_ic w) (p_v2 (all_parts p)) (p_track (all_parts p)) (p_v1 (all_parts p)) f ls ->
  exists s, dump_file d z passes md5 w p f = (s, Ok true).
Proof. exact dump_file_can. Qed.
Print Assumptions C84_dumped.
Example C84_dumped_nontrivial : match dump_read no_zlib 3 ex_sum ex_mp3 with Ok ([_], _, Some _) => True | _ => False end /\
  exists ls, file_lines (sin ex_ds) (ds_expand ex_ds) (ds_v1enc ex_ds) no_zlib 3 ex_sum (w_ic ex_world) true true true (ex_dfile ex_mp3) ls.
Proof.
  split; [vm_compute; exact Logic.I|]. destruct (C84_dump _ _ _ _ _ _ _ _ ex_dumped) as (ls & F & _). exists ls. exact F.
Qed.

(** It is not so that every file can be dumped.  At a private frame or tag cloud of an
    ID3v2.4 tag, at a counter with more than four bytes or none, and at an empty
    private frame of an ID3v2.3 tag it ends: all before that has been said, and
    nothing of what follows, the other tags, the track and the ID3v1 tag. *)
Theorem C84_stops_refuted : forall d z passes md5 w p f r l ts pre h t post f0 fr f1 b o n t',
  dump_read z passes md5 (df_data f) = Ok r -> tags_of z passes (df_data f) l ts -> p_v2 (all_parts p) = true ->
  combine l ts = pre ++ (h, t) :: post -> (forall ht, In ht pre -> exists ls, tag_lines (sin d) z (w_ic w) (hd_rev (fst ht)) (snd ht) ls) ->
  any_size z t false = Ok (n, t') -> texts_read (w_ic w) t ->
  shown t = f0 ++ fr :: f1 -> (forall x, In x f0 -> exists ls, frame_lines (sin d) (w_ic w) (any_version t) x ls) ->
  stopping (sin d) (w_ic w) (any_version t) fr b o ->
  exists tls sum fls, Forall2 (fun ht => tag_lines (sin d) z (w_ic w) (hd_rev (fst ht)) (snd ht)) pre tls /\
    summary_lines (sin d) z (w_ic w) (hd_rev h) t sum /\ Forall2 (frame_lines (sin d) (w_ic w) (any_version t)) f0 fls /\
    dump_file d z passes md5 w p f = (unlines ([quoted_path (df_path f) ++ B ":"; B "Last Modified: " ++ df_time f] ++ concat tls ++ sum ++ concat fls) ++ b,
                                      match o with None => Ok false | Some u => UB u end).
Proof. exact dump_stopped. Qed.
Print Assumptions C84_stops_refuted.
Definition ex_stop (v : N) (b : bytes) : bytes * outcome bool :=
  dump_file ex_ds no_zlib 3 ex_sum ex_world ex_all (ex_dfile (ex_v2 v (ex_text (B "TIT2") (B "Song") ++ b ++ ex_text (B "TPE1") (B "Band")) ++ [1; 2; 3] ++ ex_old)).
Definition ex_head (v size : string) : list bytes := map B
  ["""a.mp3"":"; "Last Modified: Thu"; String.append "  ID3v2." (String.append v "(.0) Tag:"); String.append "  " (String.append size " bytes, synchronised"); "  flags: 0x00"; "  Band - Song";
   "  <no album>, <no year>"; "  TIT2: Song"]%string.
Example C84_stops_nontrivial :
  ex_stop 4 (ex_frame4 (B "PRIV") (B "me" ++ [0; 65])) = (unlines (ex_head "4" "44"), Ok false) /\
  ex_stop 3 (ex_frame4 (B "PCNT") [1; 2; 3; 4; 5]) = (unlines (ex_head "3" "45") ++ B "  PCNT: ", Ok false) /\
  ex_stop 3 (ex_frame4 (B "PRIV") (B "me" ++ [0])) = (unlines (ex_head "3" "43") ++ B "  PRIV (me): 0 bytes beginning with:" ++ [10], UB OutOfBounds) /\
  ex_stop 3 (ex_frame4 (B "PCNT") []) = (unlines (ex_head "3" "40") ++ B "  PCNT: ", UB Uninitialised).
Proof. vm_compute. repeat split. Qed.

(** In particular no file with an ID3v2.4 private frame or tag cloud is ever dumped in
    full. *)
Theorem C84_private_refuted : forall d z passes md5 w p f r l ts t fr s,
  dump_read z passes md5 (df_data f) = Ok r -> tags_of z passes (df_data f) l ts -> p_v2 (all_parts p) = true ->
  In t ts -> any_version t = V24 -> In fr (shown t) -> match f_body fr with BCloud _ | BPriv _ => True | _ => False end ->
  dump_file d z passes md5 w p f <> (s, Ok true).
Proof. exact never_private. Qed.
Print Assumptions C84_private_refuted.
Example C84_private_nontrivial :
  match dump_read no_zlib 3 ex_sum (ex_v2 4 (ex_frame4 (B "PRIV") (B "me" ++ [0; 65])) ++ [1; 2; 3]) with
  | Ok ([(_, t)], _, _) => any_version t = V24 /\ match map f_body (shown t) with [BPriv _] => True | _ => False end
  | _ => False
  end.
Proof. vm_compute. split; reflexivity. Qed.

(** A text with a line end in it is dumped as two frames are. *)
Theorem C84_newline_refuted : forall d w v f f1 f2 a b,
  reads (w_ic w) v E_UTF_8 f (a ++ [10] ++ sin d ++ f_id f2 ++ B ": " ++ b) ->
  reads (w_ic w) v E_UTF_8 f1 a -> f_id f1 = f_id f -> reads (w_ic w) v E_UTF_8 f2 b ->
  print_any_frame d w v f = pall [print_any_frame d w v f1; print_any_frame d w v f2].
Proof. exact forged. Qed.
Print Assumptions C84_newline_refuted.
Example C84_newline_nontrivial :
  let fr id s := mkFrame id no_flags (BText (mkText 0 s)) in
  reads (w_ic ex_world) V23 E_UTF_8 (fr (B "TPE1") (B "a" ++ [10] ++ B "  TIT2: b")) (B "a" ++ [10] ++ sin ex_ds ++ B "TIT2" ++ B ": " ++ B "b") /\
  reads (w_ic ex_world) V23 E_UTF_8 (fr (B "TPE1") (B "a")) (B "a") /\ reads (w_ic ex_world) V23 E_UTF_8 (fr (B "TIT2") (B "b")) (B "b").
Proof. split; [|split]; eexists; (split; [reflexivity|vm_compute; reflexivity]). Qed.

(** ** Several files *)

(** Whatever the arguments and the files below them: a file that cannot be dumped does
    not keep the others from being dumped, and the command succeeds all the same. *)
Theorem C84_run : forall one matches args, (forall a, In a args -> a <> DMissing) ->
  (forall a f, In a args -> In (Some f) (arg_files a) -> matches (df_path f) = true -> exists b, snd (one f) = Ok b) ->
  dump_args one matches args =
    (flat_map (fun o => match o with Some f => if matches (df_path f) then fst (one f) else [] | None => [] end) (flat_map arg_files args), Ok tt) /\
  dump_status (snd (dump_args one matches args)) = 0.
Proof. intros one matches args H K. rewrite args_run by assumption. split; reflexivity. Qed.
Print Assumptions C84_run.
Definition ex_one : dfile -> bytes * outcome bool := dump_file ex_ds no_zlib 3 ex_sum ex_world (mkParts false true false).
Example C84_run_nontrivial :
  let broken := mkDf (B "b") (B "Fri") (B "ID3" ++ [3; 0; 0; 0; 0; 0; 9]) in let fine := mkDf (B "c") (B "Sat") [1; 2; 3] in
  snd (ex_one broken) = Ok false /\
  dump_args ex_one (fun _ => true) [DFile broken; DDir [None; Some fine]] =
    (unlines (map B ["""c"":"; "Last Modified: Sat"; "  3 bytes of track data:"; "  MD5: 03"; ""]%string), Ok tt).
Proof. vm_compute. split; reflexivity. Qed.

(** An argument that names no file ends the run: the files before it have been dumped,
    those after it are not, and the command fails. *)
Theorem C84_missing : forall one matches pre post, (forall a, In a pre -> a <> DMissing) ->
  (forall a f, In a pre -> In (Some f) (arg_files a) -> matches (df_path f) = true -> exists b, snd (one f) = Ok b) ->
  dump_args one matches (pre ++ DMissing :: post) = (fst (dump_args one matches pre), Throw RuntimeError) /\
  dump_status (snd (dump_args one matches (pre ++ DMissing :: post))) = 1.
Proof. intros one matches pre post H K. rewrite args_missing by assumption. split; reflexivity. Qed.
Print Assumptions C84_missing.
Example C84_missing_nontrivial : let fine := mkDf (B "c") (B "Sat") [1; 2; 3] in
  dump_args ex_one (fun _ => true) [DFile fine; DMissing; DFile fine] =
    (unlines (map B ["""c"":"; "Last Modified: Sat"; "  3 bytes of track data:"; "  MD5: 03"; ""]%string), Throw RuntimeError).
Proof. vm_compute. reflexivity. Qed.
