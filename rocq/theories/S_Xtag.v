(** * Specification: what the xtag command should do and print. *)
From Verif Require Import Base M_Cloud S_Cloud M_Payload M_Frame M_Id3v1 M_Read M_Process M_Cmds S_Process S_Cmds M_Xtag.
#[local] Open Scope N_scope.

(** The frame has the tag cloud [c], and the owner asked for; an empty owner stands
    for any. *)
Definition xtag_of (v : version) (owner : bytes) (f : frame) (c : cloud) : Prop :=
  f_id f = match v with V22 => B "XTG" | _ => B "XTAG" end /\ f_body f = BCloud c /\ (owner = [] \/ tc_owner c = owner).

(** The items [l] have been put into the cloud, over what was there or in place of it. *)
Definition cloud_becomes (keep : bool) (l : list item) (c c' : cloud) : Prop :=
  tc_owner c' = tc_owner c /\ is_map (tc_tags c') /\
  (forall k, keyed (tc_tags c') k <-> (keep = true /\ keyed (tc_tags c) k) \/ In k (map it_key l)) /\
  (forall k v, paired (tc_tags c') k v <->
     (keep = true /\ paired (tc_tags c) k v) \/ exists i, In i l /\ it_key i = k /\ In v (it_values i)).

(** The frame is up to date; one that is not asked for is as it was. *)
Definition xtag_frame_set (v : version) (owner : bytes) (merge : bool) (l : list item) (f f' : frame) : Prop :=
  f_id f' = f_id f /\ f_flags f' = f_flags f /\
  (forall c, xtag_of v owner f c -> exists c', f_body f' = BCloud c' /\ cloud_becomes merge l c c') /\
  ((forall c, ~ xtag_of v owner f c) -> f' = f).

(** A new frame for that owner with the items. *)
Definition new_xtag (v : version) (owner : bytes) (l : list item) (f : frame) : Prop :=
  f_flags f = no_flags /\ exists c, xtag_of v [] f c /\ cloud_becomes false l (mkCloud owner []) c.

(** The tag is up to date, and that is reported: its frames are set in place, and one
    is added if asked for and there was none. *)
Definition xtag_set (owner : bytes) (merge create : bool) (l : list item) (t t' : anytag) (changed : bool) : Prop :=
  let v := any_version t in
  same_rest t t' /\
  exists fs, Forall2 (xtag_frame_set v owner merge l) (shown t) fs /\
    (((exists f c, In f (shown t) /\ xtag_of v owner f c) /\ shown t' = fs /\ changed = true) \/
     ((forall f c, In f (shown t) -> ~ xtag_of v owner f c) /\
      if create then exists f, shown t' = fs ++ [f] /\ new_xtag v owner l f /\ changed = true
      else shown t' = fs /\ changed = false)).

(** ** Printing *)

(** The clouds asked for in the frames, in order. *)
Inductive clouds_in (v : version) (owner : bytes) : list frame -> list cloud -> Prop :=
| ci_nil : clouds_in v owner [] []
| ci_take f c fs cs : xtag_of v owner f c -> clouds_in v owner fs cs -> clouds_in v owner (f :: fs) (c :: cs)
| ci_skip f fs cs : (forall c, ~ xtag_of v owner f c) -> clouds_in v owner fs cs -> clouds_in v owner (f :: fs) cs.

(** In the tags in scope. *)
Inductive clouds_of (p : policies) (owner : bytes) : list (N * anytag) -> list cloud -> Prop :=
| co_nil : clouds_of p owner [] []
| co_take i t r cs cs' : in_scope p i = true -> clouds_in (any_version t) owner (shown t) cs -> clouds_of p owner r cs' ->
    clouds_of p owner ((i, t) :: r) (cs ++ cs')
| co_skip i t r cs : in_scope p i = false -> clouds_of p owner r cs -> clouds_of p owner ((i, t) :: r) cs.

(** A cloud with nothing to tell: no key, or only the empty key without values. *)
Definition mute (c : cloud) : Prop := tc_tags c = [] \/ tc_tags c = [([], [])].

(** The line that tells a cloud: read back, it gives the tags. *)
Definition tells_cloud (line : bytes) (c : cloud) : Prop :=
  line <> [] /\ (bytes_map (tc_tags c) -> ~ In 10 line /\ parse_text_to_map line [] = (Ok tt, tc_tags c)).

(** Lines for all clouds but the mute. *)
Inductive lines_for : list cloud -> list bytes -> Prop :=
| lf_nil : lines_for [] []
| lf_mute c cs ls : mute c -> lines_for cs ls -> lines_for (c :: cs) ls
| lf_line c cs l ls : ~ mute c -> tells_cloud l c -> lines_for cs ls -> lines_for (c :: cs) (l :: ls).
