(** * Properties: frames printed one at a time as CSV or TDF (C87). *)
From Verif Require Import Base M_Ints M_Id3v1 M_Payload M_Cloud M_Frame M_Charset M_Lookup M_Cmds M_Csv M_Report M_Dump M_Row S_Csv S_Row L_Csv L_Row.
#[local] Open Scope N_scope.

(** ** C87.  One frame to a line, every line reads back as that frame's fields.

    For any frames of any version, any separator but the quote and any encodings:
    provided each frame is one that [prints_well], and that nothing but small
    numbers is printed once a popularimeter has been. *)
Theorem C87_rows_partial lax sep v2enc dst rsp ic l fss :
  separator_ok sep = true -> sep <> quote ->
  let s := csv_rows sep v2enc dst rsp in
  Forall2 (fun vf fs => frame_fields s ic (fst vf) (snd vf) = Ok fs /\ prints_well lax sep ic (fst vf) (snd vf) /\
                        readable_row lax sep fs) l fss ->
  (forall pre vf post, l = pre ++ vf :: post -> has_number (snd vf) -> forall x, In x pre -> ~ is_popm (snd x)) ->
  exists out, fst (print_items s ic 10 (frame_lines l)) = (out, Ok tt) /\ read_rows lax sep (length l) out = Some fss.
Proof. intros H1 H2 s H3 H4. exact (rows_read lax sep v2enc dst rsp ic H1 H2 l 10 fss H3 (or_introl eq_refl) (or_introl eq_refl) H4). Qed.
Print Assumptions C87_rows_partial.

Definition ex_copy : iconv_t := fun _ _ _ b => Some b.
Definition ex_rows : list (version * frame) :=
  [ (V23, mkFrame (B "PCNT") no_flags (BCount [0; 0; 1; 0]));
    (V24, mkFrame (B "TIT2") no_flags (BText (mkText 3 (B "Hey, ""you"""))));
    (V22, mkFrame (B "POP") no_flags (BPopm (mkPopm (B "a@b") 200 [0; 0; 0; 17])));
    (V23, mkFrame (B "COMM") no_flags (BComm (mkComm 1 (Some 0) (Some (B "eng")) (B "a,b") (B "c"))));
    (V23, mkFrame (B "TXXX") no_flags (BTxxx (mkTxxx 1 0 (B "k") (B "v,w")))) ].
Example C87_rows_nontrivial :
  let s := csv_rows comma None E_UTF_8 NoFail in
  let fss := [[B "256"]; [B "Hey, ""you"""]; [B "a@b"; B "200"; B "00000011"]; [B "eng"; B "a,b"; B "c"]; [B "0"; B "k"; B "v,w"]] in
  Forall2 (fun vf fs => frame_fields s ex_copy (fst vf) (snd vf) = Ok fs /\ prints_well false comma ex_copy (fst vf) (snd vf) /\
                        readable_row false comma fs) ex_rows fss /\
  (forall pre vf post, ex_rows = pre ++ vf :: post -> has_number (snd vf) -> forall x, In x pre -> ~ is_popm (snd x)) /\
  (match fst (print_items s ex_copy 10 (frame_lines ex_rows)) with
   | (out, Ok _) => read_rows false comma 5 out = Some fss
   | _ => False
   end).
Proof.
  assert (Hs : sep_fine comma) by (apply separator_fine; [reflexivity|discriminate]).
  assert (R : forall fs, fs <> [] -> read_record false comma (printed comma fs ++ [newline] ++ []) = Some (fs, []) -> readable_row false comma fs).
  { intros fs Hn. apply (row_exact false comma fs [] Hs Hn). }
  cbv zeta. split; [|split].
  - unfold ex_rows. constructor; [split; [reflexivity|split; [|apply R; [discriminate|reflexivity]]]|].
    { unfold prints_well. cbn [snd f_body]. intros n E. injection E as <-. reflexivity. }
    constructor; [split; [reflexivity|split; [exact Logic.I|apply R; [discriminate|reflexivity]]]|].
    constructor; [split; [reflexivity|split; [exact Logic.I|apply R; [discriminate|reflexivity]]]|].
    constructor; [split; [reflexivity|split; [|apply R; [discriminate|reflexivity]]]|].
    { unfold prints_well. cbn [snd f_body]. intros l E. injection E as <-.
      split; [|split]; [| |split]; intros H; vm_compute in H; repeat destruct H as [H | H]; try discriminate H; exact H. }
    constructor; [split; [reflexivity|split; [exact Logic.I|apply R; [discriminate|reflexivity]]]|]. constructor.
  - intros pre vf post E Hn. destruct pre as [|x0 pre]; [intros x []|]. exfalso.
    assert (Hin : In vf (tl ex_rows)) by (rewrite E; cbn [app tl]; apply in_or_app; right; now left).
    cbn [tl ex_rows] in Hin. destruct Hin as [<- | [<- | [<- | [<- | []]]]]; cbn in Hn; try exact Hn. lia.
  - vm_compute. reflexivity.
Qed.

(** The same for the TDF printer, which escapes nothing: where no field has a
    separator or a line feed in it. *)
Theorem C87_tdf_partial ascii v2enc dst rsp ic l fss :
  let s := tdf_rows ascii v2enc dst rsp in
  let sep := st_sep (rs_st s) in
  Forall2 (fun vf fs => frame_fields s ic (fst vf) (snd vf) = Ok fs /\ tdf_well (fst vf) (snd vf) /\
                        Forall (tdf_field sep) fs) l fss ->
  (forall pre vf post, l = pre ++ vf :: post -> has_number (snd vf) -> forall x, In x pre -> ~ is_popm (snd x)) ->
  exists out, fst (print_items s ic 10 (frame_lines l)) = (out, Ok tt) /\ tdf_read_rows sep (length l) out = Some fss.
Proof. intros s sep H3 H4. exact (tdf_rows_read ascii v2enc dst rsp ic l 10 fss H3 (or_introl eq_refl) (or_introl eq_refl) H4). Qed.
Print Assumptions C87_tdf_partial.

Example C87_tdf_nontrivial :
  let s := tdf_rows false None E_UTF_8 NoFail in
  match fst (print_items s ex_copy 10 (frame_lines ex_rows)) with
  | (out, Ok _) => tdf_read_rows 9 5 out =
      Some [[B "256"]; [B "Hey, ""you"""]; [B "a@b"; B "200"; B "00000011"]; [B "eng"; B "a,b"; B "c"]; [B "0"; B "k"; B "v,w"]]
  | _ => False
  end.
Proof. vm_compute. reflexivity. Qed.

(** With a separator or a line feed in a field, no row of the TDF printer reads
    back: whatever the frame, and whatever comes before and after it. *)
Theorem C87_tdf_refuted ascii v2enc dst rsp ic v f fs x :
  let s := tdf_rows ascii v2enc dst rsp in
  let sep := st_sep (rs_st s) in
  frame_fields s ic v f = Ok fs -> In x fs -> ~ tdf_field sep x ->
  forall base rest r, tdf_read sep [] (fst (print_row s ic base v f) ++ [newline] ++ rest) <> (fs, r).
Proof.
  intros s sep _ H2 H3 base rest r E. apply tdf_clean in E; [|split; intros []].
  rewrite Forall_forall in E. now apply H3, E.
Qed.
Print Assumptions C87_tdf_refuted.

Example C87_tdf_refuted_nontrivial :
  let s := tdf_rows false None E_UTF_8 NoFail in
  let f := mkFrame (B "TIT2") no_flags (BText (mkText 0 [97; 9; 98])) in
  frame_fields s ex_copy V23 f = Ok [[97; 9; 98]] /\ ~ tdf_field (st_sep (rs_st s)) [97; 9; 98].
Proof. split; [reflexivity|]. intros (H & _). apply H. right. left. reflexivity. Qed.

(** Play counts: what is printed reads as the count just when that is less than
    2^32 and the stream has been left in base ten, or the count is below ten.  And
    the stream is left in base sixteen by every popularimeter and by track data. *)
Theorem C87_counts_refuted s ic v f c n l out b :
  f_body f = BCount c -> counter_value c = Ok n ->
  print_items s ic 10 l = ((out, Ok tt), b) ->
  exists x, fst (print_items s ic 10 (l ++ [IFrame v f])) = (out ++ x, Ok tt) /\
    (as_decimal x = Some n <-> n < 2 ^ 32 /\ (left_in 10 l = 10 \/ n < 10)).
Proof.
  intros E1 E2 E3. pose proof (items_base _ _ _ _ _ _ E3) as Hb. rewrite (print_items_app _ _ _ _ _ _ _ E3).
  cbn [print_items print_item]. rewrite (count_row s ic b v f c n E1 E2). cbn [snd put].
  rewrite !pthen_ok. cbn [fst snd]. rewrite app_nil_r. eexists. split; [reflexivity|]. subst b.
  apply count_decimal. exact (left_in_two l 10 (or_introl eq_refl)).
Qed.
Print Assumptions C87_counts_refuted.

Example C87_counts_nontrivial :
  let s := csv_rows comma None E_UTF_8 NoFail in
  let p := mkFrame (B "POPM") no_flags (BPopm (mkPopm (B "a@b") 200 [0; 0; 0; 17])) in
  let c := mkFrame (B "PCNT") no_flags (BCount [0; 0; 1; 0]) in
  left_in 10 [IFrame V23 p; ILit [newline]] = 16 /\
  fst (print_items s ex_copy 10 [IFrame V23 p; ILit [newline]; IFrame V23 c]) = (B "a@b,200,00000011" ++ [10] ++ B "100", Ok tt).
Proof. split; reflexivity. Qed.

(** Binary data that is not empty never reads back in hexadecimal: file identifiers
    and encryption data, of any frame with a readable owner. *)
Theorem C87_binary_refuted lax sep v2enc dst rsp ic base v f o :
  separator_ok sep = true -> sep <> quote -> base = 10 \/ base = 16 -> readable_field lax sep false o ->
  let s := csv_rows sep v2enc dst rsp in
  (forall u, f_body f = BUfid u -> uf_id u <> [] -> Forall (fun x => x < 256) (uf_id u) ->
   frame_fields s ic v f = Ok [o; B "0x" ++ hex_of (uf_id u)] ->
   exists out, print_row s ic base v f = (out, Ok tt) /\
     forall rest r, read_record lax sep (out ++ [newline] ++ rest) <> Some ([o; B "0x" ++ hex_of (uf_id u)], r)) /\
  (forall e m, f_body f = BEncr e -> en_data e <> [] -> Forall (fun x => x < 256) (en_data e) ->
   frame_fields s ic v f = Ok [o; m; B "0x" ++ hex_of (en_data e)] ->
   exists out, print_row s ic base v f = (out, Ok tt) /\
     forall rest r, read_record lax sep (out ++ [newline] ++ rest) <> Some ([o; m; B "0x" ++ hex_of (en_data e)], r)).
Proof.
  intros H1 H2 Hb R s. split.
  - intros u Eb Hn Hd E. exact (ufid_unread lax sep v2enc dst rsp ic base v f u o H1 H2 Eb Hn Hd E R).
  - intros e m Eb Hn Hd E.
    exact (encr_unread lax sep v2enc dst rsp ic base v f e o m H1 H2 Eb Hn Hd (proj1 (two_bases base Hb)) (proj2 (two_bases base Hb)) E R).
Qed.
Print Assumptions C87_binary_refuted.

Example C87_binary_nontrivial :
  let s := csv_rows comma None E_UTF_8 NoFail in
  let f := mkFrame (B "UFID") no_flags (BUfid (mkUfid (B "me") [7; 65; 10])) in
  frame_fields s ex_copy V23 f = Ok [B "me"; B "0x07410a"] /\
  print_row s ex_copy 10 V23 f = (B "me,0x0" ++ [7] ++ B "0A0" ++ [10], Ok tt).
Proof. split; reflexivity. Qed.

(** What is not escaped: the e-mail address of a private frame, the language of a
    comment, the identifier of an unknown frame.  With a separator or a line feed
    in it, it does not read back. *)
Theorem C87_unescaped_refuted lax sep v2enc dst rsp ic base v f x :
  let s := csv_rows sep v2enc dst rsp in
  (exists p, f_body f = BPriv p /\ v <> V24 /\ converted ic (pr_email p) E_ASCII E_UTF_8 NoFail = Ok x) \/
  (exists c l, f_body f = BComm c /\ co_lang c = Some l /\ takeN 3 l = x) \/
  (exists b, f_body f = BUnknown b /\ f_id f = x) ->
  In sep x \/ In lf x -> hd_error x <> Some dquote ->
  exists t, fst (print_row s ic base v f) = x ++ t /\
    forall rest fs r, read_record lax sep (fst (print_row s ic base v f) ++ [newline] ++ rest) <> Some (x :: fs, r).
Proof.
  intros s H1 H2 H3.
  assert (H0 : x <> []) by (intros ->; destruct H2 as [[] | []]).
  destruct (bare_first s ic base v f x H1) as (t & E). exists t. split; [exact E|].
  intros rest fs r. rewrite E. unfold read_record. rewrite <- app_assoc. exact (bare_unread lax sep x _ fs r H3 H0 H2).
Qed.
Print Assumptions C87_unescaped_refuted.

Example C87_unescaped_nontrivial :
  let s := csv_rows comma None E_UTF_8 NoFail in
  let f := mkFrame (B "PRIV") no_flags (BPriv (mkPriv (B "a,b") [1])) in
  print_row s ex_copy 10 V23 f = (B "a,b", Ok tt) /\ In comma (B "a,b") /\
  read_record false comma (B "a,b" ++ [newline]) = Some ([B "a"; B "b"], []).
Proof. split; [reflexivity|]. split; [right; left; reflexivity|reflexivity]. Qed.
