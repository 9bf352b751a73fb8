(** * Model: the xtag command (src/xtag.cc). *)
From Verif Require Import Base M_Ints M_Stream M_Id3v1 M_Payload M_Cloud M_Frame M_Tag22 M_Tag23 M_Tag24 M_Charset M_Lookup M_Read M_Process M_Popm M_Cmds.
#[local] Open Scope N_scope.

(** src/xtag.cc:304-309: the members; [x_dry] is that of the base class.  An owner
    that is not given is the empty string (585-588). *)
Record xtag_opts := mkXtag { x_text : bytes; x_owner : bytes; x_get : bool; x_create : bool; x_merge : bool; x_dry : bool }.

(** src/xtag.cc:312-372 [tag_traits]: the identifier, the frame made. *)
Definition xtag_id (v : version) : bytes := match v with V22 => B "XTG" | _ => B "XTAG" end.
Definition make_xtag (v : version) (o : xtag_opts) : outcome cframe :=
  let* t := cloud_from_text (x_owner o) (x_text o) in
  Ok (new_frame (mkFrame (xtag_id v) no_flags (BCloud t))).

(** What is printed: src/xtag.cc:267-286. *)
Definition got_text (t : cloud) : bytes :=
  match urlencoded (tc_tags t) with [] => [] | s => s ++ [10] end.
Definition dry_text (o : xtag_opts) (t : cloud) : bytes :=
  (if x_merge o then B "Merging " else B "Setting ") ++ x_text o ++ B " into XTAG (" ++ tc_owner t ++ B ")" ++ [10].

(** src/xtag.cc:257-287: one frame of the loop, whether it counts, and what has
    been printed. *)
Definition xtag_frame (v : version) (o : xtag_opts) (c : cframe) (out : bytes) : outcome (cframe * bool * bytes) :=
  if bytes_eqb (f_id (c_frame c)) (xtag_id v) then
    match f_body (c_frame c) with
    | BCloud t =>
        if negb (len (x_owner o) =? 0) && negb (bytes_eqb (x_owner o) (tc_owner t)) then Ok (c, false, out)
        else if x_get o then Ok (c, true, out ++ got_text t)
        else if x_dry o then Ok (c, true, out ++ dry_text o t)
        else match cloud_apply t (if x_merge o then CMerge (x_text o) else CUpdate (x_text o)) with
             | (Ok _, t') => Ok (edit_body (BCloud t') c, true, out)
             | (Throw e, _) => Throw e
             | (UB u, _) => UB u
             | (NonTerm, _) => NonTerm
             end
    | _ => Throw BadCast
    end
  else Ok (c, false, out).

(** src/xtag.cc:255-288: the loop; [n] is whether [num_xtag] is not nought. *)
Fixpoint xtag_frames (v : version) (o : xtag_opts) (cs : list cframe) (n : bool) (out : bytes) : outcome (list cframe * bool * bytes) :=
  match cs with
  | [] => Ok ([], n, out)
  | c :: r =>
      let* (c', k, out1) := xtag_frame v o c out in
      let* (r', n', out2) := xtag_frames v o r (n || k) out1 in
      Ok (c' :: r', n', out2)
  end.

(** src/xtag.cc:244-302 [process_tag], on the frames of the tag.  The lookup tables
    that [push_back] keeps are those of M_Lookup and are left out. *)
Definition xtag_tag (v : version) (o : xtag_opts) (cs : list cframe) (out : bytes) : outcome (bool * list cframe * bytes) :=
  let* (cs1, n, out1) := xtag_frames v o cs false out in
  if negb n && x_create o && negb (x_get o) then
    if x_dry o then Ok (true, cs1, out1 ++ B "creating a new XTAG frame for " ++ x_owner o ++ B ": " ++ x_text o ++ [10])
    else let* c := make_xtag v o in Ok (true, cs1 ++ [c], out1)
  else Ok (n, cs1, out1).

(** src/xtag.cc:374-438: the virtual functions; the state is what has been printed. *)
Definition xtag_processor (w : world) (o : xtag_opts) : processor bytes :=
  mkProc bytes
    (fun _ _ => Throw BadOperation)
    (fun _ => Throw BadOperation)
    (fun out t => let* st := copy_v1_frames w t in
                  let* (_, cs, out1) := xtag_tag V23 o (map snd (l_frames st)) out in
                  Ok (Some (A23 (mkTag23 None false None 1024 cs)), out1))
    (fun out => let* (_, cs, out1) := xtag_tag V23 o [] out in Ok (Some (A23 (mkTag23 None false None 1024 cs)), out1))
    (fun _ _ => Throw BadOperation)
    (fun out t => let* (u, cs, out1) := xtag_tag (any_version t) o (any_frames t) out in Ok (u, any_set_frames cs t, out1)).

(** src/xtag.cc:585-632 and the constructors, 112-187: options and policies from
    the arguments; [text] is that of --xtags. *)
Definition xtag_args (text : option bytes) (owner : bytes) (get create merge dry create_v2 always_v2 adjust backups : bool) (tags : list N)
  : outcome (xtag_opts * policies) :=
  let* c := match always_v2, create_v2 with
            | true, true => Throw BadOperation
            | false, true => Ok V2WhenV1Present
            | true, false => Ok V2Always
            | false, false => Ok V2Never
            end in
  let scope := match tags with [] => TagsAll | _ => TagsSome tags end in
  if get then Ok (mkXtag [] owner true false true false, mkPol scope false V2Never V1Never false false false)
  else match text with
       | None => Throw BadOperation
       | Some s => Ok (mkXtag s owner false create merge dry, mkPol scope false c V1Never dry adjust backups)
       end.
