(** * Specification: ID3v1 blocks and files that end in one. *)
From Verif Require Import Base M_Id3v1.

(** What a user can see of a tag through the getters: two tags are the same when
    they agree on the variant, on every field of that variant, and on the track
    number if there is one. *)
Record same_tag (t u : id3v1_tag) : Prop := {
  st_ext : v_extended t = v_extended u;
  st_v11 : v_v1_1 t = v_v1_1 u;
  st_title : v_title t = v_title u;
  st_artist : v_artist t = v_artist u;
  st_album : v_album t = v_album u;
  st_year : v_year t = v_year u;
  st_comment : v_comment t = v_comment u;
  st_genre : v_genre t = v_genre u;
  st_track : v_v1_1 t = true -> v_track t = v_track u;
  st_enh : v_extended t = true ->
     v_speed t = v_speed u /\ v_ext_genre t = v_ext_genre u /\
     v_start t = v_start u /\ v_end t = v_end u }.

(** Well-formed tags: every field has its size (ID3v1: 30, enhanced: 90, ...);
    a v1.1 tag has a non-zero track number; a v1.0 comment does not end in the
    pattern (00, non-zero) that marks v1.1. *)
Record wf_v1 (t : id3v1_tag) : Prop := {
  wf_title : len (v_title t) = if v_extended t then 90 else 30;
  wf_artist : len (v_artist t) = if v_extended t then 90 else 30;
  wf_album : len (v_album t) = if v_extended t then 90 else 30;
  wf_year : len (v_year t) = 4;
  wf_comment : len (v_comment t) = if v_v1_1 t then 28 else 30;
  wf_track : v_v1_1 t = true -> exists n, v_track t = Some n /\ n <> 0;
  wf_v10 : v_v1_1 t = false -> ~ (nthN 28 (v_comment t) = 0 /\ nthN 29 (v_comment t) <> 0);
  wf_enh : v_extended t = true ->
     (exists s, v_speed t = Some s) /\ len (v_ext_genre t) = 30 /\
     (exists x, v_start t = Some x /\ len x = 6) /\ (exists x, v_end t = Some x /\ len x = 6) }.

(** A file that ends in a [n]-byte block starting with [mark]. *)
Definition ends_in_block (file : bytes) (n : N) (mark : bytes) : Prop :=
  exists pre blk, file = pre ++ blk /\ len blk = n /\ takeN (len mark) blk = mark.

(** A setter that makes sense on enhanced tags only. *)
Definition enhanced_setter (op : v1_setter) : bool :=
  match op with
  | SetEnhGenre _ | SetSpeed _ | SetStart _ | SetEnd _ => true
  | _ => false
  end.

(** Two setter calls address the same field. *)
Definition same_setter (a b : v1_setter) : bool :=
  match a, b with
  | SetAlbum _, SetAlbum _ | SetArtist _, SetArtist _ | SetComment _, SetComment _
  | SetGenre _, SetGenre _ | SetEnhGenre _, SetEnhGenre _ | SetSpeed _, SetSpeed _
  | SetStart _, SetStart _ | SetEnd _, SetEnd _ | SetTitle _, SetTitle _
  | SetTrack _, SetTrack _ | SetYear _, SetYear _ => true
  | _, _ => false
  end.

(** [x] cut or zero-padded to [n] bytes. *)
Definition fixed (n : N) (x : bytes) : bytes := takeN n x ++ repeatN 0 (n - len x).

(** Up to the first NUL. *)
Fixpoint until_nul (x : bytes) : bytes :=
  match x with [] => [] | b :: r => if b =? 0 then [] else b :: until_nul r end.

(** The bytes a field holds after it is set; [enh] says whether the tag was an
    enhanced one at the time. *)
Definition stored_value (op : v1_setter) (enh : bool) : bytes :=
  match op with
  | SetAlbum x | SetArtist x | SetComment x | SetTitle x => fixed (if enh then 90 else 30) x
  | SetEnhGenre x => fixed 30 x
  | SetStart x | SetEnd x => fixed 6 (until_nul x)
  | SetYear x => fixed 4 (until_nul x)
  | SetGenre n | SetSpeed n | SetTrack n => [n]
  end.

(** The field a setter addresses, as the getters show it ([None]: never
    initialised). *)
Definition field_bytes (f : v1_setter) (t : id3v1_tag) : option bytes :=
  match f with
  | SetAlbum _ => Some (v_album t)
  | SetArtist _ => Some (v_artist t)
  | SetComment _ => Some (v_comment t)
  | SetGenre _ => Some [v_genre t]
  | SetEnhGenre _ => Some (v_ext_genre t)
  | SetSpeed _ => option_map (fun s => [s]) (v_speed t)
  | SetStart _ => v_start t
  | SetEnd _ => v_end t
  | SetTitle _ => Some (v_title t)
  | SetTrack _ => option_map (fun n => [n]) (v_track t)
  | SetYear _ => Some (v_year t)
  end.

(** Tags a program can start from: read from a block, or made from scratch. *)
Inductive v1_origin : id3v1_tag -> Prop :=
| from_std blk t : len blk = 128 -> init_standard blk = Ok t -> v1_origin t
| from_ext blk t : len blk = 355 -> init_extended blk = Ok t -> v1_origin t.
