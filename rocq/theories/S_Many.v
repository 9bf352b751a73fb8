(** * Specification: commands applied to several files at once. *)
From Verif Require Import Base M_Ints M_Id3v1 S_Ints M_Payload M_Cloud M_Frame M_Charset M_TextId M_Lookup M_Genres M_Read M_Fs M_Tagset M_Process M_Popm M_Cmds M_Xtag M_Options M_Split
  S_Cloud S_Read S_Tagset S_Process S_Lookup S_Popm S_Cmds S_Xtag S_Effect S_EffectX S_History.
#[local] Open Scope N_scope.

(** A path with a file name at its end. *)
Definition well_named (e : env) (p : bytes) : Prop :=
  p <> [] /\ hd 0 (e_cwd e) = 47 /\ exists d n, dir_path d /\ plain_name n /\ absolute (e_cwd e) p = spelled d n.

(** What may be changed on behalf of the file at [p]: the file, a temporary file, backups,
    that is a dot and a number appended to its name. *)
Definition may_touch (e : env) (p : bytes) (j : key) : Prop :=
  j = resolve (e_cwd e) p \/ j = e_tmp e \/
  exists ds, ds <> [] /\ forallb is_digit ds = true /\ j = resolve_abs (absolute (e_cwd e) p ++ B "." ++ ds).

(** The arguments, and what is found in directories among them, at any depth. *)
Inductive visited (entries : bytes -> list bytes) (args : list bytes) : bytes -> Prop :=
| Given p : In p args -> visited entries args p
| Inside q p : visited entries args q -> In p (entries q) -> visited entries args p.
(** Of these the directories and the others. *)
Definition dirs (e : env) (entries : bytes -> list bytes) (args : list bytes) (fs : fsys) (p : bytes) : Prop :=
  visited entries args p /\ is_dir fs (resolve (e_cwd e) p) = true.
Definition files (e : env) (entries : bytes -> list bytes) (args : list bytes) (fs : fsys) (p : bytes) : Prop :=
  visited entries args p /\ is_dir fs (resolve (e_cwd e) p) = false.

(** The arguments of a request; the request for one of them only. *)
Definition arguments (r : request) : list bytes :=
  match r with Plays vm _ => pv_args vm | Texts vm _ => tv_args vm | Genre vm _ _ => gv_args vm | Clouds vm _ _ => xv_args vm end.
Definition only (path : bytes) (r : request) : request :=
  match r with
  | Plays vm o => Plays (mkPopmVm (pv_adjust vm) (pv_always vm) (pv_backups vm) (pv_frame vm) (pv_create vm) (pv_dry vm)
      (pv_pcnt_only vm) (pv_popm_only vm) (pv_increment vm) (pv_count vm) (pv_owner vm) (pv_tag vm) (pv_rating vm) [path]) o
  | Texts vm o => Texts (mkTextVm (tv_adjust vm) (tv_always vm) (tv_create vm) (tv_backups vm) (tv_encoding vm)
      (tv_album vm) (tv_artist vm) (tv_encoded_by vm) (tv_genre vm) (tv_title vm) (tv_track vm) (tv_year vm) (tv_delete vm) (tv_tag vm) [path]) o
  | Genre vm g p => Genre (mkGenreVm (gv_adjust vm) (gv_always_v2 vm) (gv_always_v1 vm) (gv_backups vm) (gv_create_v2 vm)
      (gv_create_v1 vm) (gv_dry vm) (gv_list vm) (gv_v1_only vm) (gv_v2_only vm) (gv_winamp vm) (gv_genre vm)
      (gv_Genre vm) (gv_v1 vm) (gv_tag vm) [path]) g p
  | Clouds vm p l => Clouds (mkXtagVm (xv_adjust vm) (xv_always vm) (xv_frame vm) (xv_backups vm) (xv_create vm) (xv_dry vm)
      (xv_get vm) (xv_merge vm) (xv_owner vm) (xv_tag vm) (xv_xtags vm) [path]) p l
  end.

(** Files none of which can get in the way of another. *)
Definition apart (e : env) (fs : fsys) (paths : list bytes) : Prop :=
  Forall (fun p => well_named e p /\ exists data, find_node (resolve (e_cwd e) p) fs = Some (File data)) paths /\
  ForallOrdPairs (fun p q => ~ may_touch e p (resolve (e_cwd e) q) /\ ~ may_touch e q (resolve (e_cwd e) p)) paths.

(** Requests, each for any number of files, run one after the other, each successfully;
    what they are to the file at [path], which may or may not be among the files.  The
    file's tags can take the requests that are for it, and be saved, then. *)
Inductive rounds (z : zlib) (passes : nat) (e : env) (entries : bytes -> list bytes) (w : world) (loc : outcome enc) (path a : bytes)
    : list request -> fsys -> fsys -> Prop :=
| NoRound fs fs' : find_node (resolve (e_cwd e) path) fs' = find_node (resolve (e_cwd e) path) fs -> rounds z passes e entries w loc path a [] fs fs'
| Among r rs fs st fs1 fs' : In path (arguments r) -> apart e fs (arguments r) -> asks w loc path (only path r) ->
    (forall v2 v1, in_order z passes (resolve (e_cwd e) path) a fs v2 v1 -> fits (w_ic w) r v2 v1 /\ can_be_saved z w loc (resolve (e_cwd e) path) fs (only path r) v2 v1) ->
    run_request z passes e entries w loc r fs = (st, (Ok 0, fs1)) -> moderate (resolve (e_cwd e) path) fs1 ->
    rounds z passes e entries w loc path a rs fs1 fs' -> rounds z passes e entries w loc path a (r :: rs) fs fs'
| Elsewhere r rs fs st o fs1 fs' :
    (forall p, files e entries (arguments r) fs p -> well_named e p /\ ~ may_touch e p (resolve (e_cwd e) path)) ->
    (forall p q, files e entries (arguments r) fs p -> dirs e entries (arguments r) fs q -> ~ may_touch e p (resolve (e_cwd e) q)) ->
    run_request z passes e entries w loc r fs = (st, (o, fs1)) ->
    rounds z passes e entries w loc path a rs fs1 fs' -> rounds z passes e entries w loc path a rs fs fs'.
