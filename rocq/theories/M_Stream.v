(** * Model: C++ input streams over a file, and [looking_at_id3v2]. *)
From Verif Require Import Base M_Ints.

(** An [std::istream] on a file: content, get position, exception mask and
    iostate.  The bits are libstdc++'s: badbit 1, eofbit 2, failbit 4. *)
Record istream := mkIs { s_data : bytes; s_pos : N; s_exc : N; s_state : N }.

Definition goodbit : N := 0.
Definition badbit  : N := 1.
Definition eofbit  : N := 2.
Definition failbit : N := 4.
(** [eofbit|failbit|badbit] *)
Definition all_bits : N := 7.

(** Stream operations thread the stream and may throw. *)
Definition ST (A : Type) := istream -> outcome A * istream.
Definition sret {A} (a : A) : ST A := fun s => (Ok a, s).
Definition sthrow {A} (e : exn) : ST A := fun s => (Throw e, s).
Definition sbind {A C} (m : ST A) (f : A -> ST C) : ST C :=
  fun s => match m s with
           | (Ok a, s') => f a s'
           | (Throw e, s') => (Throw e, s')
           | (UB u, s') => (UB u, s')
           | (NonTerm, s') => (NonTerm, s')
           end.
Notation "'do' p '<-' x ';;' k" := (sbind x (fun p => k))
  (at level 61, p pattern, x at next level, right associativity).

(** try/catch of [std::ios_base::failure]. *)
Definition scatch {A} (m : ST A) (h : ST A) : ST A :=
  fun s => match m s with
           | (Throw IosFailure, s') => h s'
           | r => r
           end.

(** [is.exceptions()] *)
Definition get_exc : ST N := fun s => (Ok (s_exc s), s).
(** [is.exceptions(m)]: sets the mask, then throws if a masked bit is set. *)
Definition set_exc (m : N) : ST unit :=
  fun s => let s' := mkIs (s_data s) (s_pos s) m (s_state s) in
           if N.land (s_state s) m =? 0 then (Ok tt, s') else (Throw IosFailure, s').
(** [is.setstate(b)] *)
Definition setstate (b : N) : ST unit :=
  fun s => let st := N.lor (s_state s) b in
           let s' := mkIs (s_data s) (s_pos s) (s_exc s) st in
           if N.land st (s_exc s) =? 0 then (Ok tt, s') else (Throw IosFailure, s').
(** [is.clear()] *)
Definition sclear : ST unit :=
  fun s => (Ok tt, mkIs (s_data s) (s_pos s) (s_exc s) 0).
(** [is.tellg()]; the streams here are asked only while they are good, for a
    failed stream the standard returns -1 (modelled as an I/O failure). *)
Definition tellg : ST N :=
  fun s => if N.land (s_state s) (N.lor badbit failbit) =? 0
           then (Ok (s_pos s), s) else (Throw IosFailure, s).
(** [is.seekg(p, beg)]: clears eofbit, which throws if a masked bit stays set;
    otherwise a no-op on a failed stream.  A file stream may be positioned past
    its end. *)
Definition seekg (p : N) : ST unit :=
  fun s => let st := N.ldiff (s_state s) eofbit in
           if N.land st (s_exc s) =? 0 then
             if N.land st (N.lor badbit failbit) =? 0
             then (Ok tt, mkIs (s_data s) p (s_exc s) st)
             else (Ok tt, mkIs (s_data s) (s_pos s) (s_exc s) st)
           else (Throw IosFailure, mkIs (s_data s) (s_pos s) (s_exc s) st).
(** [is.seekg(off, cur)] for a non-negative offset. *)
Definition seekg_cur (off : N) : ST unit := fun s => seekg (s_pos s + off) s.
(** [is.seekg(-off, end)]: fails if that lies before the beginning. *)
Definition seekg_end (off : N) : ST unit :=
  fun s => if off <=? len (s_data s) then seekg (len (s_data s) - off) s
           else setstate failbit s.
(** [is.read(buf, n)]: the bytes stored; fewer than [n] sets eofbit|failbit. *)
Definition sread (n : N) : ST bytes :=
  fun s => if s_state s =? 0 then
             let b := slice (s_pos s) n (s_data s) in
             let s' := mkIs (s_data s) (s_pos s + len b) (s_exc s) 0 in
             if len b =? n then (Ok b, s')
             else match setstate (N.lor eofbit failbit) s' with
                  | (Ok _, s'') => (Ok b, s'')
                  | (Throw e, s'') => (Throw e, s'')
                  | (UB u, s'') => (UB u, s'')
                  | (NonTerm, s'') => (NonTerm, s'')
                  end
           else match setstate failbit s with
                | (Ok _, s'') => (Ok [], s'')
                | (Throw e, s'') => (Throw e, s'')
                | (UB u, s'') => (UB u, s'')
                | (NonTerm, s'') => (NonTerm, s'')
                end.

(** scribbu/id3v2.hh [id3v2_info], when [present_]. *)
Record id3v2_info := mkInfo { i_version : N; i_revision : N; i_flags : N; i_size : N }.

(** scribbu/id3v2.cc:177-205, the examination of the ten bytes read. *)
Definition classify_header (buf : bytes) : option id3v2_info :=
  match buf with
  | [b0; b1; b2; b3; b4; b5; b6; b7; b8; b9] =>
      if (b0 =? 73) && (b1 =? 68) && (b2 =? 51) then
        if negb (b3 =? 255) && negb (b4 =? 255) then
          if (b6 <? 128) && (b7 <? 128) && (b8 <? 128) && (b9 <? 128)
          then Some (mkInfo b3 b4 b5 (uint32_from_sync_safe4 b6 b7 b8 b9))
          else None
        else None
      else None
  | _ => None
  end.

(** scribbu/id3v2.cc:158-218 [looking_at_id3v2]; [None] is [present_ == false]. *)
Definition looking_at_id3v2 (restore : bool) : ST (option id3v2_info) :=
  do exc_mask <- get_exc;;
  do _ <- set_exc all_bits;;
  do here <- tellg;;
  do r <- scatch (do b <- sread 10;; sret (Some b))
                 (do _ <- sclear;; do _ <- set_exc exc_mask;; do _ <- seekg here;; sret None);;
  match r with
  | None => sret None
  | Some buf =>
      let h := classify_header buf in
      do _ <- (match h with
               | Some _ => if restore then seekg here else sret tt
               | None => seekg here
               end);;
      do _ <- set_exc exc_mask;;
      sret h
  end.
