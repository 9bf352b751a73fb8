(** * Model: tag clouds (scribbu/framesv2.hh:968-1110, scribbu/framesv2.cc:1262-1560). *)
From Verif Require Import Base M_Ints M_Payload M_Url.

(** ** std::set<std::string> and std::map<std::string, std::set<std::string>>

    A set is the list of its elements in iteration order, a map the list of its
    key/value pairs in iteration order. *)

(** [std::string::compare]: [char_traits<char>] compares as unsigned bytes. *)
Fixpoint bcmp (a b : bytes) : comparison :=
  match a, b with
  | [], [] => Eq
  | [], _ :: _ => Lt
  | _ :: _, [] => Gt
  | x :: a', y :: b' => match x ?= y with Eq => bcmp a' b' | c => c end
  end.

(** [std::set::insert] *)
Fixpoint sinsert (v : bytes) (s : list bytes) : list bytes :=
  match s with
  | [] => [v]
  | x :: r => match bcmp v x with
              | Lt => v :: s
              | Eq => s
              | Gt => x :: sinsert v r
              end
  end.

Definition cmap := list (bytes * list bytes).

(** [M.find(k)]; [M.count(k)] is whether it is [Some]. *)
Fixpoint mfind (k : bytes) (m : cmap) : option (list bytes) :=
  match m with
  | [] => None
  | (x, s) :: r => match bcmp k x with Eq => Some s | _ => mfind k r end
  end.

(** [M[k] = s] *)
Fixpoint mset (k : bytes) (s : list bytes) (m : cmap) : cmap :=
  match m with
  | [] => [(k, s)]
  | (x, t) :: r => match bcmp k x with
                   | Lt => (k, s) :: m
                   | Eq => (k, s) :: r
                   | Gt => (x, t) :: mset k s r
                   end
  end.

(** [M[k].insert(first, last)]: [operator[]] makes an empty set if there is none. *)
Definition minsert (k : bytes) (vs : list bytes) (m : cmap) : cmap :=
  let s := match mfind k m with Some s => s | None => [] end in
  mset k (fold_left (fun s v => sinsert v s) vs s) m.

Record cloud := mkCloud { tc_owner : bytes; tc_tags : cmap }.

(** scribbu/framesv2.cc:1425-1460 [write]. *)
Definition cstring (s : bytes) : bytes := s ++ [0].
Definition values_size (s : list bytes) : N := fold_right (fun v n => len v + 1 + n) 0 s.
Definition write_entry (kv : bytes * list bytes) : bytes :=
  cstring (fst kv) ++ be32 (values_size (snd kv) mod 2 ^ 32) ++ flat_map cstring (snd kv).
Definition write_cloud (c : cloud) : bytes :=
  [1] ++ cstring (tc_owner c) ++ flat_map write_entry (tc_tags c).

(** scribbu/framesv2.cc:1385-1400 [size]. *)
Definition size_cloud (c : cloud) : N :=
  1 + len (tc_owner c) + 1 +
  fold_right (fun kv n => len (fst kv) + 1 + 4 + values_size (snd kv) + n) 0 (tc_tags c).

(** scribbu/framesv2.hh:1022-1030, the inner loop, from the 32-bit count [cb] and
    the bytes [l] left in the payload: the set and the bytes left after it.
    Where no NUL is left, the iterators pass the end of the payload and the next
    [find] is over an invalid range; all those cases are one undefined outcome.
    [fuel] bounds the iterations: each consumes a byte. *)
Fixpoint parse_values (fuel : nat) (cb : N) (l : bytes) (vals : list bytes)
  : outcome (list bytes * bytes) :=
  if cb =? 0 then Ok (vals, l)
  else match fuel with
  | O => NonTerm
  | S f =>
      match split0 l with
      | (_, None) => UB BadIterator
      | (v, Some r) =>
          (* cb -= val.length() + 1, in uint32_t *)
          parse_values f ((cb + 2 ^ 32 - (len v + 1) mod 2 ^ 32) mod 2 ^ 32) r (sinsert v vals)
      end
  end.

(** scribbu/framesv2.hh:1010-1033, the outer loop. *)
Fixpoint parse_entries (fuel : nat) (l : bytes) (m : cmap) : outcome cmap :=
  match l with
  | [] => Ok m
  | _ =>
      match fuel with
      | O => NonTerm
      | S f =>
          match split0 l with
          | (key, Some (b0 :: b1 :: b2 :: b3 :: r)) =>
              let cb := uint32_from_non_sync_safe4 b0 b1 b2 b3 in
              let* (vals, r') := parse_values (S (List.length r)) cb r [] in
              parse_entries f r' (mset key vals m)
          | _ => UB BadIterator
          end
      end
  end.

(** scribbu/framesv2.hh:996-1034, the constructor from a payload. *)
Definition parse_cloud (l : bytes) : outcome cloud :=
  match l with
  | [] => UB BadIterator
  | _ :: r =>
      match split0 r with
      | (own, Some r') =>
          let* m := parse_entries (S (List.length r')) r' [] in Ok (mkCloud own m)
      | (_, None) => UB BadIterator
      end
  end.

(** ** The text form *)

(** Separated concatenation, as the [first]/[infirst] flags do it. *)
Fixpoint join (sep : N) (l : list bytes) : bytes :=
  match l with
  | [] => []
  | [x] => x
  | x :: r => x ++ sep :: join sep r
  end.

(** scribbu/framesv2.cc:1315-1352 [urlencoded]. *)
Definition urlencoded_entry (kv : bytes * list bytes) : bytes :=
  urlencode (fst kv) ++
  match snd kv with
  | [] => []
  | vs => 61 :: join 44 (map urlencode vs)
  end.
Definition urlencoded (m : cmap) : bytes := join 38 (map urlencoded_entry m).

(** scribbu/framesv2.cc:1504-1560 [parse_to_map], on the map [m]: the map
    afterwards, and whether the call returned.  State of the machine: [pk] is
    parsing_key. *)
Fixpoint parse_to_map (text : bytes) (pk : bool) (token key : bytes) (m : cmap)
  : outcome unit * cmap :=
  let with_decoded (k : bytes -> outcome unit * cmap) :=
    match urldecode token with
    | Ok t => k t
    | Throw e => (Throw e, m)
    | UB u => (UB u, m)
    | NonTerm => (NonTerm, m)
    end in
  match text with
  | [] =>
      if pk then
        with_decoded (fun t => match mfind t m with
                               | Some _ => (Throw InvalidArgument, m)
                               | None => (Ok tt, mset t [] m)
                               end)
      else with_decoded (fun t => (Ok tt, minsert key [t] m))
  | c :: r =>
      if pk then
        if c =? 61 then with_decoded (fun t => parse_to_map r false [] t m)
        else if c =? 38 then
          with_decoded (fun t => match mfind t m with
                                 | Some _ => (Throw InvalidArgument, m)
                                 | None => parse_to_map r true [] key (mset t [] m)
                                 end)
        else parse_to_map r true (token ++ [c]) key m
      else
        if c =? 44 then with_decoded (fun t => parse_to_map r false [] key (minsert key [t] m))
        else if c =? 38 then with_decoded (fun t => parse_to_map r true [] [] (minsert key [t] m))
        else parse_to_map r false (token ++ [c]) key m
  end.

Definition parse_text_to_map (text : bytes) (m : cmap) : outcome unit * cmap :=
  parse_to_map text true [] [] m.

(** scribbu/framesv2.cc:1265-1271, the constructor from text. *)
Definition cloud_from_text (owner text : bytes) : outcome cloud :=
  match parse_text_to_map text [] with
  | (Ok _, m) => Ok (mkCloud owner m)
  | (Throw e, _) => Throw e
  | (UB u, _) => UB u
  | (NonTerm, _) => NonTerm
  end.

(** Operations, each giving how it ended and the cloud afterwards:
    scribbu/framesv2.cc:1285-1313 [add_key], [add_value]; 1354-1373 [merge];
    1375-1381 [update]; framesv2.hh:1058-1059 [reset] (from a list of pairs, of
    which [std::map]'s constructor keeps the first per key, each value set
    itself built from a list). *)
Definition merge_map (M m : cmap) : cmap :=
  fold_left (fun m kv => match mfind (fst kv) m with
                         | Some _ => minsert (fst kv) (snd kv) m
                         | None => mset (fst kv) (snd kv) m
                         end) M m.

Definition reset_map (init : list (bytes * list bytes)) : cmap :=
  fold_left (fun m kv => match mfind (fst kv) m with
                         | Some _ => m
                         | None => mset (fst kv) (fold_left (fun s v => sinsert v s) (snd kv) []) m
                         end) init [].

Inductive cloud_op :=
| CAddKey (k : bytes)
| CAddValue (k v : bytes)
| CReset (init : list (bytes * list bytes))
| CMerge (text : bytes)
| CUpdate (text : bytes).

Definition cloud_apply (c : cloud) (op : cloud_op) : outcome unit * cloud :=
  let m := tc_tags c in
  let o := tc_owner c in
  match op with
  | CAddKey k => (Ok tt, mkCloud o (match mfind k m with Some _ => m | None => mset k [] m end))
  | CAddValue k v => (Ok tt, mkCloud o (minsert k [v] m))
  | CReset init => (Ok tt, mkCloud o (reset_map init))
  | CMerge text =>
      match parse_text_to_map text [] with
      | (Ok _, M) => (Ok tt, mkCloud o (merge_map M m))
      | (r, _) => (r, c)
      end
  | CUpdate text =>
      let '(r, M) := parse_text_to_map text [] in (r, mkCloud o M)
  end.

(** scribbu/framesv2.cc:1274-1283 [has_value] and framesv2.hh:1048-1049 [has_key]. *)
Definition has_key (c : cloud) (k : bytes) : bool :=
  match mfind k (tc_tags c) with Some _ => true | None => false end.
Definition has_value (c : cloud) (k v : bytes) : bool :=
  match mfind k (tc_tags c) with
  | Some s => existsb (fun x => match bcmp v x with Eq => true | _ => false end) s
  | None => false
  end.
