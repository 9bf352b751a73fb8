(** * Theorems: the dump command in CSV (C94). *)
From Verif Require Import Base M_Ints M_Stream M_Id3v1 M_Payload M_Frame M_Tag22 M_Tag23 M_Tag24 M_Charset M_Lookup M_Mp3 M_Track M_Read
  M_Tagset M_Process M_Cmds M_Csv M_Report M_Dump M_CsvDump S_Ints S_Lookup S_Cmds S_Csv S_Report S_Tdf S_Lang S_Read S_Tag23 S_Dump S_CsvDump
  L_CsvDump P_Cmds P_Dump.
#[local] Open Scope N_scope.

Definition ex_csv (p : parts) : bytes * outcome bool := dump_csv_file E_ISO_8859_1 no_zlib 3 ex_sum ex_world 2 p (ex_dfile ex_mp3).
Definition ex_lines : bytes := B """a.mp3"":" ++ [10] ++ B "Last Modified: Thu" ++ [10].
Example ex_csv_all : ex_csv ex_all = (ex_lines ++ B "3,0,96,0x00,0,Band,Song,,,,,,1,102,1,fine,3,031,0,Band,Song,,1999,,9" ++ [10], Ok true).
Proof. vm_compute. reflexivity. Qed.

(** ** C94: what a dump in CSV says *)

(** Whatever the file, the parts asked for and the conversions: if the file is dumped then
    what is printed is two lines with its path and time, and then the texts of the rows
    for each ID3v2 tag at its beginning, for the track, and for the ID3v1 tag, of those
    what was asked for, up to a line end.  If the texts can be read at all, what a reader
    of CSV gets from that line is the fields of those rows run together.  (Missing in
    [clean]: texts with quotes in them, which are misprinted (C38), and a last comment that
    is printed in quotes.) *)
Theorem C94_row_partial : forall lax e z passes md5 w ncomm p f s, dump_csv_file e z passes md5 w ncomm p f = (s, Ok true) ->
  exists Vs size sum W row, let parts := row_parts ncomm (p_track (all_parts p)) Vs size sum W in
    views e z passes md5 (w_ic w) ncomm (p_v2 (all_parts p)) (p_v1 (all_parts p)) (df_data f) Vs size sum W /\
    s = heading f ++ row /\ row = flat_map row_text parts ++ [10] /\
    (parts <> [] -> clean lax parts -> forall rest, read_record lax comma (row ++ rest) = Some (run_together parts, rest)).
Proof.
  intros lax e z passes md5 w ncomm p f s E. apply csv_file_told in E as (Vs & size & sum & W & V & ->). exists Vs, size, sum, W. eexists. split; [exact V|].
  split; [reflexivity|]. split; [reflexivity|]. intros NE C rest. rewrite <- app_assoc. apply csv_read_back; [exact NE|apply parts_numbered|exact C].
Qed.
Print Assumptions C94_row_partial.
Definition ex_view : tagview := mkView 3 0 96 0 (Some false) [Some (B "Band"); Some (B "Song"); None; None; None; None; None] 1 258 1 [B "fine"].
Definition ex_old_view : v1view := M_Csv.mkV1 true false (B "Band") (B "Song") [] (B "1999") [] 9.
Example C94_row_nontrivial : let parts := row_parts 2 true [ex_view] 3 [3] (Some ex_old_view) in
  fst (ex_csv ex_all) = heading (ex_dfile ex_mp3) ++ flat_map row_text parts ++ [10] /\
  run_together parts = map B ["3"; "0"; "96"; "0x00"; "0"; "Band"; "Song"; ""; ""; ""; ""; ""; "1"; "102"; "1"; "fine"; "3"; "031"; "0"; "Band"; "Song"; ""; "1999"; ""; "9"]%string /\
  read_record true comma (flat_map row_text parts ++ [10]) = Some (run_together parts, []).
Proof. vm_compute. repeat split. Qed.

(** If there is one part only, the row is that: the tag with -2 if there is a single one,
    the track with -D, the ID3v1 tag with -1. *)
Theorem C94_alone_partial : forall lax e z passes md5 w ncomm p f s, dump_csv_file e z passes md5 w ncomm p f = (s, Ok true) ->
  exists Vs size sum W row, views e z passes md5 (w_ic w) ncomm (p_v2 (all_parts p)) (p_v1 (all_parts p)) (df_data f) Vs size sum W /\ s = heading f ++ row /\
    forall fs, row_parts ncomm (p_track (all_parts p)) Vs size sum W = [fs] -> readable_row lax comma fs ->
    forall rest, read_record lax comma (row ++ rest) = Some (fs, rest).
Proof.
  intros lax e z passes md5 w ncomm p f s E. destruct (C94_row_partial lax _ _ _ _ _ _ _ _ _ E) as (Vs & size & sum & W & row & V & S & _ & R).
  exists Vs, size, sum, W, row. split; [exact V|]. split; [exact S|]. intros fs P RF rest. rewrite P in R. exact (R ltac:(discriminate) RF rest).
Qed.
Print Assumptions C94_alone_partial.
Example C94_alone_nontrivial :
  ex_csv (mkParts true false false) = (ex_lines ++ B "3,0,96,0x00,0,Band,Song,,,,,,1,102,1,fine," ++ [10], Ok true) /\
  ex_csv (mkParts false true false) = (ex_lines ++ B "3,03" ++ [10], Ok true) /\
  ex_csv (mkParts false false true) = (ex_lines ++ B "1,0,Band,Song,,1999,,9" ++ [10], Ok true).
Proof. vm_compute. repeat split. Qed.

(** Whenever there are more parts than one, as with the default options, there are fewer
    columns than things said: at each seam the last and the first are printed as one. *)
Theorem C94_columns_refuted : forall ncomm track Vs size sum W, let parts := row_parts ncomm track Vs size sum W in
  (List.length (run_together parts) + (List.length parts - 1) = List.length (concat parts))%nat.
Proof.
  intros ncomm track Vs size sum W parts. apply together_length. apply Forall_forall. intros x I1.
  pose proof (proj1 (Forall_forall _ _) (parts_numbered ncomm track Vs size sum W) x I1) as (f & r & -> & _). discriminate.
Qed.
Print Assumptions C94_columns_refuted.
Example C94_columns_nontrivial : let parts := row_parts 2 true [ex_view] 3 [3] (Some ex_old_view) in
  List.length parts = 3%nat /\ List.length (concat parts) = 27%nat /\ List.length (run_together parts) = 25%nat /\ clean true parts.
Proof.
  split; [reflexivity|]. split; [reflexivity|]. split; [reflexivity|].
  assert (H : forall l f, existsb (fun c => (c =? 44) || (c =? 10) || (c =? 34) || (c =? 13)) f = false -> plain_field true comma l f).
  { intros l f E. assert (A : forall c, In c f -> c <> 44 /\ c <> 10 /\ c <> 34 /\ c <> 13).
    { intros c I1. assert (Q : (c =? 44) || (c =? 10) || (c =? 34) || (c =? 13) = false).
      { destruct ((c =? 44) || (c =? 10) || (c =? 34) || (c =? 13)) eqn:Q; [|reflexivity]. exfalso. assert (T : existsb (fun c => (c =? 44) || (c =? 10) || (c =? 34) || (c =? 13)) f = true) by (apply existsb_exists; eauto).
        rewrite T in E. discriminate E. }
      clear - Q. lia. }
    split; [intros I1; now apply A in I1|]. split; [intros I1; now apply A in I1|]. split.
    - destruct f as [|c f]; [discriminate|]. intros Q. injection Q as ->. destruct (A _ (or_introl eq_refl)) as (_ & _ & Q & _). now apply Q.
    - intros _ g ->. destruct (A cr) as (_ & _ & _ & Q); [apply in_or_app; right; now left|]. now apply Q. }
  split; [|split].
  - repeat (constructor; [right; right; apply H; reflexivity|]). constructor.
  - apply H. reflexivity.
  - split; [repeat (constructor; [right; right; apply H; reflexivity|]); constructor|]. split; [apply H; reflexivity|].
    cbn [readable_row v1_fields]. repeat (split; [right; right; apply H; reflexivity|]). right; right; apply H; reflexivity.
Qed.

(** And the output as a whole is not CSV: no reader gets past the first line, whatever the
    file and whatever was asked for, if its path has neither quotes nor backslashes. *)
Theorem C94_heading_refuted : forall lax e z passes md5 w ncomm p f s rest, dump_csv_file e z passes md5 w ncomm p f = (s, Ok true) ->
  path_fine (df_path f) -> read_record lax comma (s ++ rest) = None.
Proof.
  intros lax e z passes md5 w ncomm p f s rest E P. apply csv_file_told in E as (Vs & size & sum & W & _ & ->). rewrite <- app_assoc. now apply heading_none.
Qed.
Print Assumptions C94_heading_refuted.
Example C94_heading_nontrivial : snd (ex_csv ex_all) = Ok true /\ path_fine (df_path (ex_dfile ex_mp3)).
Proof. split; [vm_compute; reflexivity|]. split; intros I1; cbn in I1; intuition discriminate. Qed.
