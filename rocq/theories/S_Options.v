(** * Specification: options of the sub-commands that change files. *)
From Verif Require Import Base M_Ints M_Stream M_Id3v1 M_Payload M_Frame M_Charset M_TextId M_Lookup M_Read M_Fs M_Tagset M_Process M_Popm M_Cmds M_Xtag M_Options.
#[local] Open Scope N_scope.

(** What counts as wrong usage. *)
Definition popm_misuse (vm : popm_vm) : Prop :=
  pv_args vm = [] \/
  (exists s, pv_rating vm = Some s /\ rating_from_text s = None) \/
  (pv_pcnt_only vm = true /\ pv_popm_only vm = true) \/
  (pv_increment vm <> None /\ pv_count vm <> None) \/
  (pv_create vm = true /\ pv_always vm = true).
Definition xtag_misuse (vm : xtag_vm) : Prop :=
  xv_args vm = [] \/ (xv_create vm = true /\ xv_always vm = true) \/ (xv_get vm = false /\ xv_xtags vm = None).
(** For text, once the encoding is known and the frames to delete are. *)
Definition text_misuse (vm : text_vm) : Prop := tv_args vm = [] \/ (tv_create vm = true /\ tv_always vm = true).

(** How many of the three ways to name a genre are used. *)
Definition text_given (o : option bytes) : N := match o with Some (_ :: _) => 1 | _ => 0 end.
Definition ways (vm : genre_vm) : N :=
  (match gv_winamp vm with Some _ => 1 | None => 0 end) + text_given (gv_genre vm) + text_given (gv_Genre vm).
Definition genre_misuse (vm : genre_vm) : Prop :=
  (exists n, gv_winamp vm = Some n /\ 192 <= n) \/
  (gv_list vm = false /\
   (gv_args vm = [] \/ ways vm <> 1 \/
    (gv_v1_only vm = true /\ (gv_v2_only vm = true \/ given (gv_tag vm) <> [])) \/
    (gv_create_v2 vm = true /\ gv_always_v2 vm = true) \/ (gv_create_v1 vm = true /\ gv_always_v1 vm = true))).

(** How a run ended, with which files, having passed through which states. *)
Definition ended_with (r : list fsys * (outcome N * fsys)) (n : N) : Prop := fst (snd r) = Ok n.
Definition untouched (r : list fsys * (outcome N * fsys)) (fs : fsys) : Prop := fst r = [] /\ snd (snd r) = fs.

(** The option of the text command for a frame. *)
Definition text_option (vm : text_vm) (k : tframe) : option bytes :=
  match k with
  | tf_talb => tv_album vm | tf_tcon => tv_genre vm | tf_tenc => tv_encoded_by vm | tf_tit2 => tv_title vm
  | tf_tpe1 => tv_artist vm | tf_trck => tv_track vm | tf_tyer => tv_year vm
  | _ => None
  end.

(** The same options but for --tag. *)
Definition without_tag (vm : popm_vm) : popm_vm :=
  mkPopmVm (pv_adjust vm) (pv_always vm) (pv_backups vm) (pv_frame vm) (pv_create vm) (pv_dry vm) (pv_pcnt_only vm) (pv_popm_only vm)
           (pv_increment vm) (pv_count vm) (pv_owner vm) None (pv_rating vm) (pv_args vm).
