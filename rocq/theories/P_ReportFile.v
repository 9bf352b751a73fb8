(** * C54, C72: what of a file is reported. *)
From Verif Require Import Base M_Ints M_Stream M_Id3v1 M_Payload M_Frame M_Tag22 M_Tag23 M_Tag24 M_Charset M_Mp3 M_Track M_Read
  M_Tagset M_Cmds M_Csv M_Report M_Dump S_Stream S_Read S_Csv S_Tdf S_Tag23 S_Dump L_Stream L_Read L_Track L_Cmds L_Report2 L_M3u2 L_Dump P_Cmds P_Report.

(** What a report has read of a file is the first ID3v2 tag at its beginning,
    parsed from its own bytes, the bytes between that tag and the ID3v1 tag at the
    end, and the ID3v1 tag: what the rows of C54, C71 and C72 describe is the
    file.  (Further ID3v2 tags count as audio.) *)
Theorem C54_read : forall z passes md5 data v2 tr v1, report_read z passes md5 data = Ok (v2, tr, v1) ->
  v1_of data v1 /\
  match v2 with
  | None => (forall v r f sz, ~ id3v2_header_at data 0 v r f sz) /\ track_of md5 data [] (tr_size tr) (tr_md5 tr)
  | Some (rev, t) => exists v f sz, id3v2_header_at data 0 v rev f sz /\ 10 + sz <= len data /\
      parse_any z passes v f (slice 10 sz data) = Ok t /\
      track_of md5 data [mkHead 0 v rev f sz] (tr_size tr) (tr_md5 tr)
  end.
Proof.
  intros z passes md5 data v2 tr v1. unfold report_read, open_file.
  destruct ((do h <- _;; _) (mkIs data 0 goodbit 0)) as (o, s) eqn:R. cbn [fst]. intros ->.
  apply sbind_inv in R as (h & s1 & L & R). apply sbind_inv in R as (a & s2 & R1 & R).
  apply sbind_inv in R as (b & s3 & R2 & R). apply sbind_inv in R as (c & s4 & R3 & R).
  apply sret_inv in R. injection R as -> -> ->.
  destruct (looking_at_exact data 0 goodbit false) as [(v & r & f & sz & HH & E)|(NO & E)]; rewrite E in L.
  - injection L as <- <-. apply sbind_inv in R1 as (t & s' & R1 & Q). unfold sret in Q. injection Q as <- <-.
    cbn [i_revision]. change (0 + 10) with 10 in R1. pose proof (header_fits _ _ _ _ _ _ HH) as HF. cbn [i_revision] in *.
    destruct (N.leb_spec (10 + sz) (len data)) as [HL|HL].
    + destruct (read_version_at z passes v r f sz data 10 goodbit HL) as (X1 & X2). rewrite R1 in X1, X2. cbn [fst snd] in X1, X2.
      symmetry in X1. specialize (X2 _ X1). subst s'. split.
      * destruct (track_state _ _ _ _ _ _ R2) as (p & ->). intros p' e'. rewrite (process_any data p' e' p goodbit), R3. reflexivity.
      * exists v, f, sz. split; [exact HH|]. split; [exact HL|]. split; [exact X1|].
        split; [exact (proj1 (track_any _ _ _ _ _ _ R2))|]. intros A C. exact (proj1 (track_between _ _ _ _ _ _ A C R2)).
    + exfalso. exact (read_version_short _ _ _ _ _ _ _ _ _ _ _ HL HF R1).
  - injection L as <- <-. unfold sret in R1. injection R1 as <- <-. split.
    + destruct (track_state _ _ _ _ _ _ R2) as (p & ->). intros p' e'. rewrite (process_any data p' e' p goodbit), R3. reflexivity.
    + split; [exact NO|]. split; [exact (proj1 (track_any _ _ _ _ _ _ R2))|]. intros A C. exact (proj1 (track_between _ _ _ _ _ _ A C R2)).
Qed.
Print Assumptions C54_read.
Example C54_read_nontrivial : exists rev t tr v1, report_read no_zlib 3 ex_md5 (rf_data ex_both) = Ok (Some (rev, t), tr, Some v1).
Proof. eexists _, _, _, _. vm_compute. reflexivity. Qed.
