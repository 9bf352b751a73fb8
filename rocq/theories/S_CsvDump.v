(** * Specification: what a dump in CSV says of a file. *)
From Verif Require Import Base M_Ints M_Stream M_Id3v1 M_Payload M_Frame M_Tag22 M_Tag23 M_Tag24 M_Charset M_Lookup M_Mp3 M_Track M_Read
  M_Tagset M_Process M_Cmds M_Csv M_Dump S_Ints S_Lookup S_Cmds S_Csv S_Report S_Tdf S_Lang S_Read S_Dump.
#[local] Open Scope N_scope.

(** What there is to say: of each tag at the beginning, of the track, and of the ID3v1
    tag if there is one. *)
Definition views (e : enc) (z : zlib) (passes : nat) (md5 : bytes -> bytes) (ic : iconv_t) (ncomm : nat) (tags v1 : bool) (data : bytes)
    (Vs : list tagview) (size : N) (sum : bytes) (W : option v1view) : Prop :=
  exists l ts o, tags_of z passes data l ts /\ track_of md5 data l size sum /\ v1_of data o /\
    (if tags then Forall2 (fun ht V => answers z ic ncomm (hd_rev (fst ht)) (snd ht) V) (combine l ts) Vs else Vs = []) /\
    (if v1 then optionally (answers_v1 ic e) o W else W = None).

(** The parts of the row, and the fields in each. *)
Definition row_parts (ncomm : nat) (track : bool) (Vs : list tagview) (size : N) (sum : bytes) (W : option v1view) : list (list bytes) :=
  map (tag_fields ncomm) Vs ++ (if track then [[number 10 size; flat_map (fun x => width2 (number 16 x)) sum]] else []) ++
  match W with Some W => [v1_fields (Some W)] | None => [] end.

(** The text of a row with these fields. *)
Definition row_text (fs : list bytes) : bytes := M_Csv.separated comma (map (escape comma quote) fs).

(** Two rows made one with nothing between them: the last field of the one and the first
    of the other are one. *)
Fixpoint run_together (ps : list (list bytes)) : list bytes :=
  match ps with
  | [] => []
  | [p] => p
  | p :: r => match run_together r with
              | [] => p
              | f :: fs => removelast p ++ (last p [] ++ f) :: fs
              end
  end.

(** Fields that a reader can read; the last one of a part that is followed by another must
    do without quotes. *)
Fixpoint clean (lax : bool) (ps : list (list bytes)) : Prop :=
  match ps with
  | [] => True
  | [p] => readable_row lax comma p
  | p :: r => Forall (readable_field lax comma false) (removelast p) /\ plain_field lax comma false (last p []) /\ clean lax r
  end.

(** The lines before the row. *)
Definition heading (f : dfile) : bytes := quoted_path (df_path f) ++ B ":" ++ [10] ++ B "Last Modified: " ++ df_time f ++ [10].
