(** * Specification: histories of commands on a file. *)
From Verif Require Import Base M_Ints M_Id3v1 S_Ints M_Payload M_Cloud M_Frame M_Charset M_TextId M_Lookup M_Genres M_Read M_Fs M_Tagset M_Process M_Popm M_Cmds M_Xtag M_Options
  S_Cloud S_Read S_Tagset S_Process S_Lookup S_Popm S_Cmds S_Xtag S_Effect S_EffectX.
#[local] Open Scope N_scope.

(** ** Requests *)

(** One run of a command, and what its options ask for: plays to be added, texts to be
    set and deleted, a genre for the tags in scope, items for tag clouds. *)
Inductive request :=
| Plays (vm : popm_vm) (o : popm_opts)
| Texts (vm : text_vm) (o : text_opts)
| Genre (vm : genre_vm) (g : genre_choice) (p : policies)
| Clouds (vm : xtag_vm) (p : policies) (l : list item).

Definition run_request (z : zlib) (passes : nat) (e : env) (entries : bytes -> list bytes) (w : world) (loc : outcome enc) (r : request) : FS N :=
  match r with
  | Plays vm _ => run_popm z passes e entries w vm
  | Texts vm _ => run_text z passes e entries w loc vm
  | Genre vm _ _ => run_genre z passes e entries w vm
  | Clouds vm _ _ => run_xtag z passes e entries w vm
  end.

(** The options do ask for it, for that one file, without a change of unsynchronisation. *)
Definition asks (w : world) (loc : outcome enc) (path : bytes) (r : request) : Prop :=
  match r with
  | Plays vm o => (exists p, popm_options vm = Handled (Ok (o, false, p))) /\ o_increment o = true /\
      pv_dry vm = false /\ pv_adjust vm = false /\ pv_args vm = [path]
  | Texts vm o => (exists p, text_options loc vm = Handled (Ok (o, p))) /\ given (tv_tag vm) = [] /\
      tv_adjust vm = false /\ tv_args vm = [path] /\ NoDup (to_dels o) /\ NoDup (map fst (to_sets o))
  | Genre vm g p => genre_options w vm = Handled (Ok (Some (g, p))) /\
      gv_dry vm = false /\ gv_adjust vm = false /\ gv_args vm = [path] /\
      exists name, text_for_genre (gc_number g) = Some name /\ to_bytes (w_ic w) name E_UTF_8 E_ASCII false NoFail = Ok name
  | Clouds vm p l => (exists o, xtag_options vm = Handled (Ok (o, p))) /\ xv_get vm = false /\
      xv_dry vm = false /\ xv_adjust vm = false /\ xv_args vm = [path] /\
      xv_xtags vm = Some (items_text l) /\ l <> [] /\ Forall item_ok l /\ fresh_bare [] [] l /\ plain_items l /\ ~ In 0 (own vm)
  end.

(** The tags can take it: counters have room, frames to delete stand from the last to the
    first, texts can be stored, tags in scope have a content type. *)
Definition fits (ic : iconv_t) (r : request) (v2 : list anytag) (v1 : option id3v1_tag) : Prop :=
  match r with
  | Plays _ o => Forall (room_for ic o (o_count o)) v2
  | Texts _ o => Forall (text_takes ic o) v2
  | Genre _ g p => scope_fits p v2 /\ (v1 = None -> p_v1_creation p = V1Never) /\
      forall i t, In (i, t) (with_index v2) -> in_scope p i = true -> has_genre ic t /\ S_Cmds.storable ic (any_version t) E_UTF_8 (gc_text g)
  | Clouds vm p l => scope_fits p v2 /\ forall i t, In (i, t) (with_index v2) -> in_scope p i = true -> clouds_room (own vm) l t
  end.

(** The tags [ts] and the policies [p] with which the request comes to save the file. *)
Definition made (w : world) (loc : outcome enc) (r : request) (v2 : list anytag) (v1 : option id3v1_tag) (p : policies) (ts : list anytag) : Prop :=
  match r with
  | Plays vm o => popm_options vm = Handled (Ok (o, false, p)) /\ exists d u s, process_tagset (popm_processor w o false) p v2 v1 tt = Ok (d, ts, u, s)
  | Texts vm o => text_options loc vm = Handled (Ok (o, p)) /\ exists d u s, process_tagset (text_processor w o) p v2 v1 tt = Ok (d, ts, u, s)
  | Genre vm g q => p = q /\ exists d u s, process_tagset (genre_processor w g) p v2 v1 tt = Ok (d, ts, u, s)
  | Clouds vm q _ => p = q /\ exists o d u s, xtag_options vm = Handled (Ok (o, p)) /\ process_tagset (xtag_processor w o) p v2 v1 [] = Ok (d, ts, u, s)
  end.
(** They can be saved: with --create-backups always, in place as in C34. *)
Definition can_be_saved (z : zlib) (w : world) (loc : outcome enc) (k : key) (fs : fsys) (r : request) (v2 : list anytag) (v1 : option id3v1_tag) : Prop :=
  forall data l p ts, find_node k fs = Some (File data) -> tags_from data 0 l -> made w loc r v2 v1 p ts -> can_be_written z p (tags_end 0 l) ts.
Definition with_backups (r : request) : bool :=
  match r with Plays vm _ => pv_backups vm | Texts vm _ => tv_backups vm | Genre vm _ _ => gv_backups vm | Clouds vm _ _ => xv_backups vm end.

(** What it does to the tags of the file. *)
Definition effect (ic : iconv_t) (r : request) (v2 : list anytag) (v1 : option id3v1_tag) (v2' : list anytag) (v1' : option id3v1_tag) : Prop :=
  match r with
  | Plays _ o => Forall2 (tag_plays_added ic o (o_count o)) v2 v2' /\ same_v1 v1 v1'
  | Texts _ o => Forall2 (tag_texts_read ic o) v2 v2' /\ same_v1 v1 v1'
  | Genre _ g p => Forall2 (genre_read ic (gc_text g) p) (with_index v2) v2' /\
      exists name v1m, text_for_genre (gc_number g) = Some name /\ v1_genre_set (gc_number g) name p v1 v1m /\ same_v1 v1m v1'
  | Clouds vm p l => Forall2 (clouds_read p (own vm) (xv_merge vm) (xv_frame vm) l) (with_index v2) v2' /\ same_v1 v1 v1'
  end.
(** One after the other. *)
Fixpoint effects (ic : iconv_t) (rs : list request) (v2 : list anytag) (v1 : option id3v1_tag) (v2' : list anytag) (v1' : option id3v1_tag) : Prop :=
  match rs with
  | [] => v2' = v2 /\ v1' = v1
  | r :: rs => exists u2 u1, effect ic r v2 v1 u2 u1 /\ effects ic rs u2 u1 v2' v1'
  end.

(** ** Histories *)

(** The requests run one after the other, each successfully, on a file whose tags can take
    it, and be saved, then; in between the file is left alone. *)
Inductive history (z : zlib) (passes : nat) (e : env) (entries : bytes -> list bytes) (w : world) (loc : outcome enc) (path a : bytes)
    : list request -> fsys -> fsys -> Prop :=
| Begun fs : history z passes e entries w loc path a [] fs fs
| Then r rs fs st fs1 fs2 fs' : asks w loc path r ->
    (forall v2 v1, in_order z passes (resolve (e_cwd e) path) a fs v2 v1 -> fits (w_ic w) r v2 v1 /\ can_be_saved z w loc (resolve (e_cwd e) path) fs r v2 v1) ->
    run_request z passes e entries w loc r fs = (st, (Ok 0, fs1)) -> moderate (resolve (e_cwd e) path) fs1 ->
    find_node (resolve (e_cwd e) path) fs2 = find_node (resolve (e_cwd e) path) fs1 ->
    history z passes e entries w loc path a rs fs2 fs' -> history z passes e entries w loc path a (r :: rs) fs fs'.

(** ** What is whose *)

(** The frames a request is about, by identifier. *)
Definition about (v : version) (r : request) (id : bytes) : Prop :=
  match r with
  | Plays _ _ => id = count_id v \/ id = popm_id v
  | Texts _ o => In id (ids_in v (to_dels o ++ map fst (to_sets o)))
  | Genre _ _ _ => id = tcon_id v
  | Clouds _ _ _ => id = match v with V22 => B "XTG" | _ => B "XTAG" end
  end.
(** The frames that none of the requests is about are the same. *)
Definition rest_same (rs : list request) (t t' : anytag) : Prop :=
  any_version t' = any_version t /\
  forall id, (forall r, In r rs -> ~ about (any_version t) r id) -> with_id id (shown t') = with_id id (shown t).

(** The frames that count. *)
Definition counting (f : frame) : bool := match counter_of f with Some _ => true | None => false end.
Definition counters (t : anytag) : list frame := filter counting (shown t).
(** The requests ask for [n] more plays in the frame, and last for the rating [r], if any
    does. *)
Inductive played (ic : iconv_t) (v : version) (f : frame) : list request -> N -> option N -> Prop :=
| Unplayed : played ic v f [] 0 None
| PlayedMore vm o rs n r : named ic v o f -> played ic v f rs n r ->
    played ic v f (Plays vm o :: rs) (o_count o + n) (match r with Some _ => r | None => o_rating o end)
| PlayedOthers vm o rs n r : ~ named ic v o f -> played ic v f rs n r -> played ic v f (Plays vm o :: rs) n r
| NotPlays q rs n r : (forall vm o, q <> Plays vm o) -> played ic v f rs n r -> played ic v f (q :: rs) n r.
Definition all_played (ic : iconv_t) (rs : list request) (t t' : anytag) : Prop :=
  any_version t' = any_version t /\
  Forall2 (fun f f' => exists n r, played ic (any_version t) f rs n r /\ raised r n f f') (counters t) (counters t').
