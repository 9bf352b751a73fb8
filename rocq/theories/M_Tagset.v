(** * Model: writing tagsets to files (scribbu/tagset.hh). *)
From Verif Require Import Base M_Ints M_Stream M_Payload M_Frame M_Tag22 M_Tag23 M_Tag24 M_Read M_Fs.

(** ** Tags of any version *)

(** [std::size_t] arithmetic. *)
Definition wrap64 (n : N) : N := n mod 2 ^ 64.

(** [padding()] and [padding(n)] (id3v22.hh:132-135, id3v23.hh:242-245,
    id3v24.hh:273-276). *)
Definition any_padding (t : anytag) : N :=
  match t with A22 t => t2_pad t | A23 t => t3_pad t | A24 t => t4_pad t end.
Definition any_set_padding (t : anytag) (n : N) : anytag :=
  match t with
  | A22 t => A22 (mkTag22 (t2_unsync t) (t2_comp t) n (t2_frames t))
  | A23 t => A23 (mkTag23 (t3_unsync t) (t3_exp t) (t3_ext t) n (t3_frames t))
  | A24 t => A24 (mkTag24 (t4_unsync t) (t4_exp t) (t4_foot t) (t4_ext t) n (t4_frames t))
  end.

(** [size(unsync)] before it is cut to 64 bits, and the tag with its caches as
    the call leaves them. *)
Definition any_size (z : zlib) (t : anytag) (u : bool) : outcome (N * anytag) :=
  match t with
  | A22 t => let* (n, t') := size22 t u in Ok (n, A22 t')
  | A23 t => let* (n, t') := size23 z t u in Ok (n, A23 t')
  | A24 t => let* (n, t') := size24 z t u in Ok (n, A24 t')
  end.

(** [needs_unsynchronisation()] (id3v22.cc:264-269, id3v23.cc:560-593,
    id3v24.cc:655-662; the first two as [frames_need], the third as [all_need]),
    here with the caches as the call leaves them. *)
Fixpoint frames_need_c (wire : frame -> outcome bytes) (last_no_pad : bool) (l : list cframe)
  : outcome (bool * list cframe) :=
  match l with
  | [] => Ok (false, [])
  | [c] => let* c' := refresh wire last_no_pad c in Ok (negb (c_syncs c' =? 0), [c'])
  | c :: r => let* c' := refresh wire false c in
              if negb (c_syncs c' =? 0) then Ok (true, c' :: r)
              else let* (b, r') := frames_need_c wire last_no_pad r in Ok (b, c' :: r')
  end.
Fixpoint all_need_c (wire : frame -> outcome bytes) (l : list cframe) : outcome (bool * list cframe) :=
  match l with
  | [] => Ok (true, [])
  | c :: r => let* c' := refresh wire false c in
              if c_syncs c' =? 0 then Ok (false, c' :: r)
              else let* (b, r') := all_need_c wire r in Ok (b, c' :: r')
  end.
Definition any_needs (z : zlib) (t : anytag) : outcome (bool * anytag) :=
  match t with
  | A22 t =>
      let* (b, fs) := frames_need_c wire22 false (t2_frames t) in
      Ok (b, A22 (mkTag22 (t2_unsync t) (t2_comp t) (t2_pad t) fs))
  | A23 t =>
      let* t1 := prep_ext z t in
      if match t3_ext t1 with Some x => negb (x_syncs x =? 0) | None => false end then Ok (true, A23 t1)
      else
        let* (b, fs) := frames_need_c (wire23 z) (t3_pad t1 =? 0) (t3_frames t1) in
        Ok (b, A23 (mkTag23 (t3_unsync t1) (t3_exp t1) (t3_ext t1) (t3_pad t1) fs))
  | A24 t =>
      let* (b, fs) := all_need_c (wire24 z) (t4_frames t) in
      Ok (b, A24 (mkTag24 (t4_unsync t) (t4_exp t) (t4_foot t) (t4_ext t) (t4_pad t) fs))
  end.

(** [write] (id3v22.cc:271-296, id3v23.cc:636-667, id3v24.cc:712-744): as
    [write22], [write23] and [write24], the size in the header being cut to 64
    bits. *)
Definition any_write (z : zlib) (t : anytag) (u : bool) : outcome (bytes * anytag) :=
  match t with
  | A22 t =>
      let* (cb, t1) := size22 t u in
      let* h := tag_header 2 0 (N.lor (flags22 t) (bit_if u 128)) (wrap64 cb) in
      let* fs := map_refresh wire22 (t2_frames t1) in
      Ok (h ++ concat (map (cached22 u) fs) ++ repeatN 0 (t2_pad t1),
          A22 (mkTag22 (t2_unsync t1) (t2_comp t1) (t2_pad t1) fs))
  | A23 t =>
      let* (cb, t1) := size23 z t u in
      let* h := tag_header 3 0 (N.lor (flags23 t) (bit_if u 128)) (wrap64 cb) in
      let* t2 := prep_ext z t1 in
      let* fs := map_refresh (wire23 z) (t3_frames t2) in
      Ok (h ++ match t3_ext t2 with Some x => ext_written23 u x | None => [] end
            ++ concat (map (cached u) fs) ++ repeatN 0 (t3_pad t2),
          A23 (mkTag23 (t3_unsync t2) (t3_exp t2) (t3_ext t2) (t3_pad t2) fs))
  | A24 t =>
      let* (cb, t1) := size24 z t u in
      let* h := tag_header 4 0 (flags24 t) (wrap64 cb) in
      let* x := (match t4_ext t1 with Some x => ext_wire24 x | None => Ok [] end) in
      let* fs := map_refresh (wire24 z) (t4_frames t1) in
      let* ft := (if t4_foot t1 then tag_footer (flags24 t) (wrap64 cb) else Ok []) in
      Ok (h ++ x ++ concat (map (cached u) fs) ++ repeatN 0 (t4_pad t1) ++ ft,
          A24 (mkTag24 (t4_unsync t1) (t4_exp t1) (t4_foot t1) (t4_ext t1) (t4_pad t1) fs))
  end.

(** scribbu/tagset.hh [apply_unsync] and 282-293 [compute_apply_unsync]. *)
Inductive apply_unsync := Never | Always | AsNeeded.
Definition compute_apply_unsync (z : zlib) (m : apply_unsync) (t : anytag) : outcome (bool * anytag) :=
  match m with
  | Never => Ok (false, t)
  | Always => Ok (true, t)
  | AsNeeded => any_needs z t
  end.

(** One round of the loop at tagset.hh:499-504 ... *)
Definition probe (z : zlib) (m : apply_unsync) (t : anytag) : outcome (N * anytag) :=
  let* (u, t1) := compute_apply_unsync z m t in any_size z t1 u.
(** ... and of those at 372-376, 599-602, 735-737. *)
Definition emit (z : zlib) (m : apply_unsync) (t : anytag) : outcome (bytes * anytag) :=
  let* (u, t1) := compute_apply_unsync z m t in any_write z t1 u.

(** scribbu/tagset.hh:493-506 [tagset_sizes], before the sums are cut to 64 bits. *)
Fixpoint sizes (z : zlib) (m : apply_unsync) (ts : list anytag) : outcome (N * N * list anytag) :=
  match ts with
  | [] => Ok (0, 0, [])
  | t :: r =>
      let* (n, t1) := probe z m t in
      let* (n', p', r1) := sizes z m r in
      Ok (n + 10 + n', any_padding t1 + p', t1 :: r1)
  end.
Definition tagset_sizes (z : zlib) (m : apply_unsync) (ts : list anytag)
  : outcome (N * N * list anytag) :=
  let* (n, p, ts1) := sizes z m ts in Ok (wrap64 n, wrap64 p, ts1).

(** Writing a range of tags: the bytes that reach the stream, and how the loop
    ends.  (Simplified: of a tag whose [write] throws, nothing is taken to have
    reached the stream.) *)
Fixpoint emit_all (z : zlib) (m : apply_unsync) (ts : list anytag) : bytes * outcome (list anytag) :=
  match ts with
  | [] => ([], Ok [])
  | t :: r =>
      match emit z m t with
      | Ok (b, t1) =>
          let '(w, o) := emit_all z m r in
          (b ++ w, let* r1 := o in Ok (t1 :: r1))
      | Throw e => ([], Throw e)
      | UB u => ([], UB u)
      | NonTerm => ([], NonTerm)
      end
  end.

(** ** Existing tags *)

(** scribbu/tagset.hh:538-543, the loop of [tagset_size]. *)
Fixpoint extant_loop (fuel : nat) (cb : N) : ST N :=
  match fuel with
  | O => fun s => (NonTerm, s)
  | S fuel =>
      do h <- looking_at_id3v2 false;;
      match h with
      | None => sret cb
      | Some H => do _ <- seekg_cur (i_size H);; extant_loop fuel (cb + (10 + i_size H))
      end
  end.
(** scribbu/tagset.hh:519-547 [tagset_size] of a file with this content. *)
Definition extant (data : bytes) : outcome N :=
  fst (extant_loop (S (List.length data)) 0 (mkIs data 0 all_bits 0)).
Definition tagset_size (fs : fsys) (k : key) : outcome N :=
  match find_node k fs with
  | Some (File b) => extant b
  | _ => Ok 0
  end.

(** scribbu/tagset.hh:382-386, the loop of [replace_tagset_copy]. *)
Fixpoint skip_loop (fuel : nat) : ST unit :=
  match fuel with
  | O => fun s => (NonTerm, s)
  | S fuel =>
      do h <- looking_at_id3v2 true;;
      match h with
      | None => sret tt
      | Some H => do _ <- seekg_cur (10 + i_size H);; skip_loop fuel
      end
  end.
(** scribbu/tagset.hh:378-402: what is copied from the old file.  With the tags
    reaching beyond the end of the file, [vector] throws [length_error]. *)
Definition rest_of (data : bytes) : outcome bytes :=
  fst ((do _ <- skip_loop (S (List.length data));;
        do here <- tellg;;
        do _ <- seekg_end 0;;
        do there <- tellg;;
        do _ <- seekg here;;
        if here =? there then sret []
        else if there <? here then sthrow LogicError
        else sread (there - here)) (mkIs data 0 all_bits 0)).

(** ** Backup names *)

Definition is_digit (c : N) : bool := (48 <=? c) && (c <=? 57).

(** scribbu/tagset.hh:228-254: an entry of the form prefix "." digits. *)
Definition numbered (prefix s : bytes) : bool :=
  bytes_eqb prefix (takeN (len prefix) s)
  && (len prefix + 1 <? len s)
  && (nth (N.to_nat (len prefix)) s 0 =? 46)
  && forallb is_digit (dropN (len prefix + 1) s).

(** [atoi] of a string of digits. *)
Definition atoi (s : bytes) : outcome N :=
  let n := fold_left (fun n c => 10 * n + (c - 48)) s 0 in
  if n <? 2 ^ 31 then Ok n else UB Overflow.

(** scribbu/tagset.hh:265-271: [atoi(p.extension().string().substr(1))]. *)
Definition entry_number (p : bytes) : outcome N :=
  match extension p with
  | [] => Throw OutOfRange
  | _ :: s => atoi s
  end.

(** The number of the last entry, once they are sorted by it. *)
Fixpoint last_number (l : list bytes) : outcome N :=
  match l with
  | [] => Ok 0
  | p :: r => let* n := entry_number p in let* m := last_number r in Ok (N.max n m)
  end.

(** A number in decimal ([ostream << int]). *)
Fixpoint decimal_loop (fuel : nat) (n : N) : bytes :=
  match fuel with
  | O => []
  | S fuel => (if n <? 10 then [] else decimal_loop fuel (n / 10)) ++ [48 + n mod 10]
  end.
Definition decimal (n : N) : bytes := decimal_loop (S (N.to_nat (N.log2 n))) n.

(** scribbu/tagset.hh:214-280 [get_backup_name]. *)
Definition get_backup_name (fs : fsys) (cwd p : bytes) : outcome bytes :=
  let here := parent_path (absolute cwd p) in
  match filter (numbered p) (directory_entries fs here) with
  | [] => Ok (join here (stem p ++ (extension p ++ B ".1")))
  | entries =>
      let* n := last_number entries in
      if n + 1 <? 2 ^ 31 then Ok (p ++ B "." ++ decimal (n + 1)) else UB Overflow
  end.

(** ** Rewriting by copy *)

(** What the surroundings decide: the working directory, the name [tmpnam]
    yields, how [rename] ends, and where, if at all, each copy breaks off. *)
Inductive rename_result := RenameOk | RenameXdev | RenameError.
Record env := mkEnv { e_cwd : bytes; e_tmp : key; e_rename : rename_result;
                      e_copy1 : option nat; e_copy2 : option nat; e_copy3 : option nat }.

(** The backup at tagset.hh:412-434 and 446-452. *)
Definition make_backup (e : env) (p : bytes) : FS key := fun fs =>
  (run name <- flift (get_backup_name fs (e_cwd e) p);;
   let cp := resolve (e_cwd e) name in
   run old <- lookup cp;;
   run _ <- (match old with Some _ => fremove cp | None => fret tt end);;
   run _ <- fcopy (resolve (e_cwd e) p) cp (e_copy1 e);;
   fret cp) fs.

(** scribbu/tagset.hh:436-468: the temporary file takes the place of the file;
    [cp] is the backup, if one has been made. *)
Definition swap_in (e : env) (p : bytes) (keep : bool) (cp : option key) : FS unit :=
  let k := resolve (e_cwd e) p in
  match e_rename e with
  | RenameOk => frename (e_tmp e) k
  | RenameError => fthrow FsError
  | RenameXdev =>
      run cp' <- (match cp with Some c => fret c | None => make_backup e p end);;
      run _ <- fremove k;;
      fcatch (run _ <- fcopy (e_tmp e) k (e_copy2 e);;
              if negb keep then fremove (e_tmp e) else fret tt)
             (fun x => run _ <- fcatch (fcopy cp' k (e_copy3 e)) (fun _ => fret tt);; fthrow x)
  end.

(** scribbu/tagset.hh:343-469 [replace_tagset_copy].  What the stream of the
    temporary file still buffers is written by its destructor when an exception
    passes, so that the bytes reach the file in any case. *)
Definition replace_tagset_copy (z : zlib) (e : env) (p : bytes) (ts : list anytag)
  (m : apply_unsync) (keep : bool) : FS (list anytag) :=
  let k := resolve (e_cwd e) p in
  run _ <- change (set_node (e_tmp e) (File []));;
  let '(w, o) := emit_all z m ts in
  run _ <- append (e_tmp e) w;;
  run ts1 <- flift o;;
  run old <- lookup k;;
  match old with
  | Some (File data) =>
      run rest <- flift (rest_of data);;
      run _ <- append (e_tmp e) rest;;
      run cp <- (if keep then run c <- make_backup e p;; fret (Some c) else fret None);;
      run _ <- swap_in e p keep cp;;
      fret ts1
  | _ => fthrow FsError
  end.

(** ** Writing in place *)

(** What writing [w] through a mapping of the file makes of its content: the
    mapping does not grow. *)
Definition overlay (data w : bytes) : bytes := takeN (len data) (w ++ dropN (len w) data).

(** scribbu/tagset.hh:575-605 [replace_tagset_emplace].  An empty file cannot be
    mapped. *)
Definition replace_tagset_emplace (z : zlib) (e : env) (p : bytes) (ts : list anytag)
  (m : apply_unsync) : FS (list anytag) := fun fs =>
  let k := resolve (e_cwd e) p in
  (run cb_extant <- flift (tagset_size fs k);;
   run (cb_new, _, ts1) <- flift (tagset_sizes z m ts);;
   if negb (cb_extant =? cb_new) then fthrow MismatchSize
   else
     match find_node k fs with
     | Some (File ((_ :: _) as data)) =>
         let '(w, o) := emit_all z m ts1 in
         run _ <- change (set_node k (File (overlay data w)));;
         flift o
     | _ => fthrow IosFailure
     end) fs.

(** ** Adjusting paddings *)

(** [size_t] to [ptrdiff_t]. *)
Definition to_signed (n : N) : Z :=
  if n <? 2 ^ 63 then Z.of_N n else (Z.of_N n - 2 ^ 64)%Z.
(** [pad + d] in [size_t]. *)
Definition add_signed (pad : N) (d : Z) : N := Z.to_N ((Z.of_N pad + d) mod 2 ^ 64)%Z.

(** scribbu/tagset.hh:668-678, the loop: the tags as an exit leaves them, and
    whether it is an exception. *)
Fixpoint adjust_rest (adj : Z) (ts : list anytag) : list anytag * outcome unit :=
  match ts with
  | [] => ([], Ok tt)
  | t :: r =>
      if ((adj <? 0) && (Z.of_N (any_padding t) <? - adj))%Z then (ts, Throw NotEnoughPadding)
      else let '(r', o) := adjust_rest adj r in
           (any_set_padding t (add_signed (any_padding t) adj) :: r', o)
  end.

(** scribbu/tagset.hh:641-679 [adjust_padding_to]; C's division truncates. *)
Definition adjust_padding_to (ts : list anytag) (cb_new cb_curr : N) : list anytag * outcome unit :=
  let total := to_signed (wrap64 (cb_new + 2 ^ 64 - wrap64 cb_curr)) in
  match ts with
  | [] => ([], UB DivByZero)
  | t :: r =>
      let n := Z.of_N (len ts) in
      let adj := Z.quot total n in
      let mu := Z.rem total n in
      if ((adj <? 0) && (Z.of_N (any_padding t) <? - (adj + mu)))%Z then (ts, Throw NotEnoughPadding)
      else let '(r', o) := adjust_rest adj r in
           (any_set_padding t (add_signed (any_padding t) (adj + mu)) :: r', o)
  end.

(** ** Choosing *)

Inductive emplace_strategy := OnlyWithFullPadding | ReducePaddingEvenly.

(** scribbu/tagset.hh:705-747 [maybe_emplace_tagset]. *)
Definition maybe_emplace_tagset (z : zlib) (e : env) (p : bytes) (ts : list anytag)
  (m : apply_unsync) (estrat : emplace_strategy) (keep : bool) : FS (list anytag) := fun fs =>
  let k := resolve (e_cwd e) p in
  (run curr <- flift (tagset_size fs k);;
   run (subs, subs_pad, ts1) <- flift (tagset_sizes z m ts);;
   if subs <=? curr then
     if subs <? curr then
       let '(ts2, o) := adjust_padding_to ts1 curr subs in
       run _ <- flift o;; replace_tagset_emplace z e p ts2 m
     else replace_tagset_emplace z e p ts1 m
   else if (wrap64 (subs + 2 ^ 64 - subs_pad) <=? curr)
           && match estrat with OnlyWithFullPadding => false | _ => true end then
     let '(ts2, o) := adjust_padding_to ts1 curr subs in
     run _ <- flift o;; replace_tagset_emplace z e p ts2 m
   else
     match find_node k fs with
     | None =>
         let '(w, o) := emit_all z m ts1 in
         run _ <- change (set_node k (File []));;
         run _ <- append k w;;
         flift o
     | Some _ => replace_tagset_copy z e p ts1 m keep
     end) fs.
