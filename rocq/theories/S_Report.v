(** * Specification: what the rows of a CSV report hold.

    The fields a reader should find in each row, in order.  Numbers are as the
    stream prints them: [number 10] or [number 16]. *)
From Verif Require Import Base M_Csv S_Csv.

(** ** The fields of a tag. *)
Definition text_field (t : option bytes) : bytes := match t with Some s => s | None => [] end.
Definition plays_field (t : tagview) : bytes :=
  if tv_pcnt t =? 1 then number 16 (tv_plays t) else if 1 <? tv_pcnt t then [42] else [].
(** With no comments asked for, there is an empty field in their place. *)
Definition comment_fields (ncomm : nat) (l : list bytes) : list bytes :=
  match ncomm with O => [[]] | _ => map (fun i => nth i l []) (seq 0 ncomm) end.
Definition tag_fields (ncomm : nat) (t : tagview) : list bytes :=
  [number 10 (tv_version t); number 10 (tv_revision t); number 10 (tv_size t);
   B "0x" ++ width2 (number 16 (tv_flags t)); number 16 (optional_to_uint (tv_unsync t))] ++
  map text_field (tv_texts t) ++
  [number 16 (tv_pcnt t); plays_field t; number 16 (tv_ncomm t)] ++
  comment_fields ncomm (tv_comments t).

(** Texts that survive: in them, and nowhere last, a quote or such comes with a
    separator or a line feed. *)
Definition tag_readable (lax : bool) (sep : N) (t : tagview) : Prop :=
  Forall (readable_field lax sep false) (map text_field (tv_texts t)) /\
  Forall (readable_field lax sep false) (tv_comments t).

Definition path_fine (p : bytes) : Prop := ~ In quote p /\ ~ In 92 p.

Definition v1_fields (v : option v1view) : list bytes :=
  match v with
  | None => repeat [] 8
  | Some t => [number 16 (if w1_1 t then 1 else 0); number 16 (if w1_ext t then 1 else 0);
               w1_artist t; w1_title t; w1_album t; w1_year t; w1_comment t; number 10 (w1_genre t)]
  end.
Definition v1_readable (lax : bool) (sep : N) (v : option v1view) : Prop :=
  match v with
  | None => True
  | Some t => Forall (readable_field lax sep false) [w1_artist t; w1_title t; w1_album t; w1_year t; w1_comment t]
  end.
Definition v2_readable (lax : bool) (sep : N) (v : option tagview) : Prop :=
  match v with None => True | Some t => tag_readable lax sep t end.
Definition v2_fields (ncomm : nat) (v : option tagview) : list bytes :=
  match v with None => repeat [] (15 + ncomm) | Some t => tag_fields ncomm t end.

Definition row_fields (no_dir : bool) (ncomm : nat) (dir name mb : bytes) (v2 : option tagview)
    (size : N) (md5 : bytes) (v1 : option v1view) : list bytes :=
  (if no_dir then [] else [dir]) ++ [name; mb] ++ v2_fields ncomm v2 ++
  [number 10 size; flat_map (fun x => width2 (number 16 x)) md5] ++ v1_fields v1.

(** The characters of a size in megabytes. *)
Definition megabytes (mb : bytes) : Prop := Forall (fun c => (48 <= c /\ c <= 57) \/ c = 46) mb.

Definition headings (no_dir : bool) (ncomm : nat) : list bytes :=
  (if no_dir then [] else [B "directory"]) ++ v2_headings ++
  map (fun i => B "comment #" ++ number 10 (N.of_nat i) ++ B " text") (seq 0 ncomm) ++ v1_headings.


(** What stands under a heading. *)
Fixpoint column (h : bytes) (hs fs : list bytes) : option bytes :=
  match hs, fs with
  | h' :: hs', f :: fs' => if bytes_eqb h h' then Some f else column h hs' fs'
  | _, _ => None
  end.
