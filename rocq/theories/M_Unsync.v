(** * Model: the unsynchronisation scheme
      (scribbu/framesv2.hh, scribbu/framesv2.cc, scribbu/id3v2.cc). *)
From Verif Require Import Base.

(** scribbu/framesv2.cc:36-40 [detail::is_false_sync]. *)
Definition is_false_sync (x y : N) : bool := (255 =? x) && (233 <? y).

(** scribbu/framesv2.cc:42-46 [detail::needs_unsync]. *)
Definition needs_unsync (x y : N) : bool := (255 =? x) && ((233 <? y) || (0 =? y)).

(** scribbu/framesv2.hh:121-136 [detail::count_syncs] over a range. *)
Fixpoint count_syncs (l : bytes) (false_only : bool) : N :=
  match l with
  | x :: ((y :: _) as r) =>
      (if (if false_only then is_false_sync x y else needs_unsync x y) then 1 else 0)
      + count_syncs r false_only
  | _ => 0
  end.

(** scribbu/framesv2.cc:48-68 [detail::count_syncs] over a 32-bit word: walks
    the word's bytes in memory order; little-endian host assumed. *)
Definition count_syncs32 (n : N) (false_only : bool) : N :=
  count_syncs [ N.land n 255; N.land (N.shiftr n 8) 255;
                N.land (N.shiftr n 16) 255; N.land (N.shiftr n 24) 255 ] false_only.

(** scribbu/framesv2.hh:147-174 [detail::unsynchronise].  The [find]/[copy_n]
    pair, which copies up to the next 0xff, is flattened to a byte-wise
    recursion. *)
Fixpoint unsynchronise (l : bytes) (last : bool) : bytes :=
  match l with
  | [] => []
  | b :: r =>
      if b =? 255 then
        match r with
        | [] => if last then [255; 0] else [255]
        | q :: _ =>
            if (q =? 0) || (N.land q 224 =? 224)
            then 255 :: 0 :: unsynchronise r last
            else 255 :: unsynchronise r last
        end
      else b :: unsynchronise r last
  end.

(** ** scribbu/id3v2.cc:221-292 [resynchronise], in place on [p[0..cb)].
    [cb] is the length of the buffer; indices are [nat]. *)

(** The two search loops (lines 249-253 and 266-271): the least [i' >= i] with
    [i' >= cb - 1] or a false sync at [i'].  [fuel] bounds the iterations; the
    callers pass [cb], more than the loop can use. *)
Fixpoint rs_search (fuel : nat) (p : bytes) (cb i : nat) : nat :=
  match fuel with
  | O => i
  | S f =>
      if Nat.ltb i (cb - 1)
      then if (255 =? nth i p 0) && (0 =? nth (S i) p 0) then i
           else rs_search f p cb (S i)
      else i
  end.

(** Array store [p[i] = v]. *)
Fixpoint store (p : bytes) (i : nat) (v : N) : bytes :=
  match p, i with
  | [], _ => []
  | _ :: r, O => v :: r
  | x :: r, S j => x :: store r j v
  end.

(** Lines 277-280: for i in [from, from+n): p[i - sync_no] = p[i]. *)
Fixpoint rs_move (n : nat) (p : bytes) (from sync_no : nat) : bytes :=
  match n with
  | O => p
  | S m => rs_move m (store p (from - sync_no) (nth from p 0)) (S from) sync_no
  end.

(** Lines 262-287, the main loop; returns the buffer and the final [sync_no]. *)
Fixpoint rs_loop (fuel : nat) (p : bytes) (cb i0 sync_no : nat) : bytes * nat :=
  match fuel with
  | O => (p, sync_no)
  | S f =>
      if Nat.ltb i0 cb then
        let i1 := rs_search cb p cb (S i0) in
        let i1 := if Nat.ltb i1 cb then S i1 else i1 in
        let p' := rs_move (i1 - S i0) p (S i0) sync_no in
        if Nat.eqb i1 cb then (p', sync_no)
        else rs_loop f p' cb i1 (S sync_no)
      else (p, sync_no)
  end.

(** The whole function: the buffer's first [return value] bytes afterwards. *)
Definition resynchronise (p : bytes) : bytes :=
  let cb := length p in
  if Nat.eqb cb 0 then []
  else
    let i0 := S (rs_search cb p cb 0) in
    if Nat.eqb i0 cb then p
    else let (p', sync_no) := rs_loop cb p cb i0 1 in
         firstn (cb - sync_no) p'.
