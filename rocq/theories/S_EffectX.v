(** * Specification: tag clouds in a file after the xtag command. *)
From Verif Require Import Base M_Cloud S_Cloud M_Payload M_Frame M_Read M_Fs M_Tagset M_Process M_Cmds M_Xtag M_Options S_Process S_Cmds S_Xtag.
#[local] Open Scope N_scope.

(** The tag with the items put into its clouds of that owner, in a new one if asked for
    and there was none; all other frames are the same. *)
Definition clouds_put (owner : bytes) (merge create : bool) (l : list item) (t t' : anytag) : Prop :=
  let v := any_version t in
  any_version t' = v /\
  exists fs, Forall2 (xtag_frame_set v owner merge l) (shown t) fs /\
    ((exists f c, In f (shown t) /\ xtag_of v owner f c) /\ shown t' = fs \/
     (forall f c, In f (shown t) -> ~ xtag_of v owner f c) /\
     if create then exists f, shown t' = fs ++ [f] /\ new_xtag v owner l f else shown t' = fs).

(** So it is with the tags in scope. *)
Definition clouds_read (p : policies) (owner : bytes) (merge create : bool) (l : list item) (it : N * anytag) (t' : anytag) : Prop :=
  if in_scope p (fst it) then clouds_put owner merge create l (snd it) t' else any_version t' = any_version (snd it) /\ shown t' = shown (snd it).

(** What can be stored in a frame: no NULs, and of each key no more values than can be
    counted, those that are there included. *)
Definition plain_items (l : list item) : Prop := Forall (fun i => plain (it_key i) /\ Forall plain (it_values i)) l.
Definition items_size (l : list item) : N := total_values (flat_map it_values l).
Definition clouds_room (owner : bytes) (l : list item) (t : anytag) : Prop :=
  items_size l < 2 ^ 32 /\
  forall f c k s, In f (shown t) -> xtag_of (any_version t) owner f c -> In (k, s) (tc_tags c) -> total_values s + items_size l < 2 ^ 32.

(** The owner asked for; empty if none is. *)
Definition own (vm : xtag_vm) : bytes := match xv_owner vm with Some s => s | None => [] end.

(** The command with other items to put. *)
Definition to_put (vm : xtag_vm) (l : list item) : xtag_vm :=
  mkXtagVm (xv_adjust vm) (xv_always vm) (xv_frame vm) (xv_backups vm) (xv_create vm) (xv_dry vm) (xv_get vm) (xv_merge vm) (xv_owner vm) (xv_tag vm)
           (Some (items_text l)) (xv_args vm).
(** Commands run one after the other, each successfully. *)
Fixpoint one_by_one (cs : list (FS N)) (ok : fsys -> Prop) (fs fs' : fsys) : Prop :=
  match cs with
  | [] => fs' = fs
  | c :: r => exists st fs1, c fs = (st, (Ok 0, fs1)) /\ ok fs1 /\ one_by_one r ok fs1 fs'
  end.
