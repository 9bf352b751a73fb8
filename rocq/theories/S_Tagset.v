(** * Specification: saving tagsets. *)
From Verif Require Import Base M_Unsync M_Payload M_Frame M_Tag22 M_Tag23 M_Tag24 M_Read M_Fs M_Tagset S_Tag23 S_Tag24.

(** A tag but for its padding. *)
Definition unpadded (t : anytag) : anytag := any_set_padding t 0.

(** ... and also but for the caches of its frames and of its extended header: what
    a user put into it. *)
Definition bare_ext (x : ext23) : ext23 := mkExt (x_pad x) (x_crc x) true [] [] 0.
Definition contents (t : anytag) : anytag :=
  let fresh := map (fun c => new_frame (c_frame c)) in
  match t with
  | A22 t => A22 (mkTag22 (t2_unsync t) (t2_comp t) 0 (fresh (t2_frames t)))
  | A23 t => A23 (mkTag23 (t3_unsync t) (t3_exp t) (option_map bare_ext (t3_ext t)) 0 (fresh (t3_frames t)))
  | A24 t => A24 (mkTag24 (t4_unsync t) (t4_exp t) (t4_foot t) (t4_ext t) 0 (fresh (t4_frames t)))
  end.

(** The sum of the paddings. *)
Definition total_padding (ts : list anytag) : N := fold_right (fun t n => any_padding t + n) 0 ts.

(** No extended header, or one without checksum that holds nothing that the
    unsynchronisation scheme would touch and whose cache is not stale. *)
Definition ext_plain (x : option ext23) : Prop :=
  match x with
  | None => True
  | Some y => x_crc y = None /\ ext_unaffected x /\
      (x_dirty y = false -> x_plain y = ext_wire23 y /\ x_unsync y = unsynchronise (ext_wire23 y) false)
  end.

(** An ID3v2.2 tag, or an ID3v2.3 tag without extended header or with a plain one. *)
Definition simple_tag (t : anytag) : Prop :=
  match t with A22 _ => True | A23 t => ext_plain (t3_ext t) | A24 _ => False end.

(** These, or an ID3v2.4 tag without extended header or with one that carries
    neither checksum nor restrictions. *)
Definition sound_tag (t : anytag) : Prop :=
  match t with A22 _ => True | A23 t => ext_plain (t3_ext t) | A24 t => ext_simple (t4_ext t) end.

(** The case in which a padding is made negative: there are fewer bytes to take
    away than tags, and the first tag has not enough padding for all of them. *)
Definition wraps (ts : list anytag) (target current : N) : Prop :=
  exists t r, ts = t :: r /\ target < current /\ current - target < len ts /\ any_padding t < current - target.

(** ** Paths *)

(** A file name: no slash in it, and not "", "." or "..". *)
Definition plain_name (n : bytes) : Prop := ~ In 47 n /\ n <> [] /\ n <> [46] /\ n <> [46; 46].

(** The absolute path of the entry [n] of the directory [d], the root directory
    being [[]]. *)
Definition spelled (d n : bytes) : bytes := d ++ [47] ++ n.
Definition dir_path (d : bytes) : Prop := d = [] \/ hd 0 d = 47 /\ last d 0 <> 47.

(** The number that a string of digits denotes. *)
Definition value_of (ds : bytes) : N := fold_left (fun n c => 10 * n + (c - 48)) ds 0.

(** The keys that may serve as backups of the entry [n] of [d]: a dot and a number
    appended to its name. *)
Definition is_backup (d n : bytes) (c : key) : Prop :=
  exists ds, ds <> [] /\ forallb is_digit ds = true /\ c = resolve_abs (spelled d n ++ B "." ++ ds).

(** An ID3v2.4 tag; the sum of the paddings of these among the tags. *)
Definition is_v24 (t : anytag) : bool := match t with A24 _ => true | _ => false end.
Definition v24_padding (ts : list anytag) : N := total_padding (filter is_v24 ts).
