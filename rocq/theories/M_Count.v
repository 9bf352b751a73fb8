(** * Model: what payloads say of the syncs in them (scribbu/framesv2.cc,
    scribbu/framesv23.cc).

    Every payload class has [needs_unsynchronisation()], which is
    [count_syncs(true)], and [serialized_size(unsync)], which is [size()] plus
    [count_syncs(false)] when asked for the unsynchronised form. *)
From Verif Require Import Base M_Unsync M_Payload M_Cloud.

(** The test that [count_syncs(false_only)] makes of two neighbours; e.g.
    scribbu/framesv2.cc:729-734. *)
Definition sync_pair (f : bool) (x y : N) : bool := if f then is_false_sync x y else needs_unsync x y.
Definition b2n (b : bool) : N := if b then 1 else 0.
(** [v.size() && sync(x, v.front())]; e.g. scribbu/framesv2.cc:873-880. *)
Definition join_syncs (f : bool) (x : N) (v : bytes) : N :=
  match v with [] => 0 | y :: _ => b2n (sync_pair f x y) end.

(** scribbu/framesv2.cc:662-672 [unique_file_id::count_syncs]. *)
Definition syncs_ufid (u : ufid) (f : bool) : N := count_syncs (uf_owner u) f + count_syncs (uf_id u) f.
(** scribbu/framesv2.cc:631-639. *)
Definition serial_ufid (u : ufid) (unsync : bool) : N :=
  size_ufid u + (if unsync then syncs_ufid u false else 0).

(** scribbu/framesv2.cc:719-747 [encryption_method::count_syncs].  Between the
    method and the data both branches ask [is_false_sync]. *)
Definition syncs_encr (e : encr) (f : bool) : outcome N :=
  match en_method e with
  | None => match en_email e, en_data e with [], [] => Ok 0 | _, _ => UB Uninitialised end
  | Some m =>
      Ok (count_syncs (en_email e) f
          + (match en_email e with [] => 0 | _ => b2n (sync_pair f (last (en_email e) 0) m) end)
          + (match en_data e with [] => 0 | y :: _ => b2n (is_false_sync m y) end)
          + count_syncs (en_data e) f)
  end.
(** scribbu/framesv2.cc:686-695. *)
Definition serial_encr (e : encr) (unsync : bool) : outcome N :=
  if unsync then let* n := syncs_encr e false in Ok (size_encr e + n) else Ok (size_encr e).

(** scribbu/framesv2.cc:866-886 [user_defined_text::count_syncs]. *)
Definition syncs_txxx (t : txxx) (f : bool) : N :=
  join_syncs f (ud_unicode t) (ud_desc t) + count_syncs (ud_desc t) f + count_syncs (ud_text t) f.
(** scribbu/framesv2.cc:820-828. *)
Definition serial_txxx (t : txxx) (unsync : bool) : N :=
  size_txxx t + (if unsync then syncs_txxx t false else 0).

(** scribbu/framesv2.cc:1019-1058 [comments::count_syncs].  [text_.front()] is
    asked for whenever there is a description, the terminator between them being
    left out. *)
Definition syncs_comm (c : comm) (f : bool) : outcome N :=
  match co_unicode c, co_lang c with
  | Some u, Some lg =>
      match co_desc c, co_text c with
      | _ :: _, [] => UB OutOfBounds
      | _, _ =>
          Ok (b2n (sync_pair f u (hd 0 lg)) + count_syncs lg f
              + join_syncs f (last lg 0) (co_desc c)
              + count_syncs (co_desc c) f
              + (match co_desc c with [] => 0 | _ => join_syncs f (last (co_desc c) 0) (co_text c) end)
              + count_syncs (co_text c) f)
      end
  | _, _ => UB Uninitialised
  end.
(** scribbu/framesv2.cc:978-986. *)
Definition serial_comm (c : comm) (unsync : bool) : outcome N :=
  if unsync then let* n := syncs_comm c false in Ok (size_comm c + n) else Ok (size_comm c).

(** scribbu/framesv2.cc:1128-1132 [play_count::count_syncs] and 1097-1111. *)
Definition syncs_pcnt (c : bytes) (f : bool) : N := count_syncs c f.
Definition serial_pcnt (c : bytes) (unsync : bool) : N := len c + (if unsync then syncs_pcnt c false else 0).

(** scribbu/framesv2.cc:1220-1238 [popularimeter::count_syncs] and 1188-1196. *)
Definition syncs_popm (p : popm) (f : bool) : N :=
  count_syncs (po_email p) f + join_syncs f (po_rating p) (po_counter p) + count_syncs (po_counter p) f.
Definition serial_popm (p : popm) (unsync : bool) : N :=
  size_popm p + (if unsync then syncs_popm p false else 0).

(** scribbu/framesv23.cc:291-300 [private_frame::count_syncs] and 261-268. *)
Definition syncs_priv (p : priv) (f : bool) : N := count_syncs (pr_email p) f + count_syncs (pr_contents p) f.
Definition serial_priv (p : priv) (unsync : bool) : N :=
  size_priv p + (if unsync then syncs_priv p false else 0).

(** scribbu/framesv2.cc:1475-1499, the loop of [tag_cloud::count_syncs] for one
    key: [nval] is looked at in the machine's byte order, and
    [kv.second.begin()->front()] is read of an empty set too. *)
Definition syncs_entry (f : bool) (kv : bytes * list bytes) : outcome N :=
  let nval := values_size (snd kv) mod 2 ^ 32 in
  let n := count_syncs (fst kv) f + fold_right (fun v n => count_syncs v f + n) 0 (snd kv)
           + count_syncs32 nval f in
  if f then
    match snd kv with
    | [] => UB BadIterator
    | v :: _ => Ok (n + b2n ((255 =? N.land 255 nval) && is_false_sync 255 (hd 0 v)))
    end
  else Ok n.
Fixpoint syncs_entries (f : bool) (m : cmap) : outcome N :=
  match m with
  | [] => Ok 0
  | kv :: r => let* n := syncs_entry f kv in let* k := syncs_entries f r in Ok (n + k)
  end.
(** scribbu/framesv2.cc:1462-1502 [tag_cloud::count_syncs] and 1404-1412. *)
Definition syncs_cloud (c : cloud) (f : bool) : outcome N :=
  let* n := syncs_entries f (tc_tags c) in Ok (count_syncs (tc_owner c) f + n).
Definition serial_cloud (c : cloud) (unsync : bool) : outcome N :=
  if unsync then let* n := syncs_cloud c false in Ok (size_cloud c + n) else Ok (size_cloud c).
