(** * Model: the split command (src/split.cc). *)
From Verif Require Import Base M_Ints M_Stream M_Id3v1 M_Fs M_Tagset.

(** A stream operation on the file [k]: what is read is what the file holds at
    that time.  (Simplified: the stream does not buffer.) *)
Definition on_stream {A} (k : key) (s : istream) (m : ST A) : FS (A * istream) := fun fs =>
  let data := match find_node k fs with Some (File b) => b | _ => s_data s end in
  let '(o, s') := m (mkIs data (s_pos s) (s_exc s) (s_state s)) in
  flift (let* a := o in Ok (a, s')) fs.

Definition is_dir (fs : fsys) (k : key) : bool :=
  match k, find_node k fs with
  | [], _ => true
  | _, Some Dir => true
  | _, _ => false
  end.

(** [std::ofstream ofs(pth)]: an existing file is emptied; fails if the path is
    that of a directory or if there is no directory for it. *)
Definition open_ofstream (cwd p : bytes) : FS key := fun fs =>
  let k := resolve cwd p in
  if is_dir fs k || negb (is_dir fs (removelast k)) || (last p 47 =? 47) then fthrow IosFailure fs
  else (run _ <- change (set_node k (File []));; fret k) fs.

(** src/split.cc:54-65 [xfer_bytes]; a size that became negative is more than
    can be allocated. *)
Definition xfer_bytes (cwd : bytes) (k : key) (s : istream) (p : bytes) (cb : N) : FS istream :=
  run out <- open_ofstream cwd p;;
  if 2 ^ 63 <=? cb then fthrow BadAlloc
  else
    run (b, s1) <- on_stream k s (sread cb);;
    run _ <- append out b;;
    fret s1.

(** src/split.cc:99-110: the loop over the tags. *)
Fixpoint split_tags (fuel : nat) (cwd : bytes) (k : key) (suffix : bytes) (count : N) (s : istream)
  : FS istream :=
  match fuel with
  | O => flift NonTerm
  | S fuel =>
      run (h, s1) <- on_stream k s (looking_at_id3v2 true);;
      match h with
      | None => fret s1
      | Some H =>
          run s2 <- xfer_bytes cwd k s1 (B "id3v2" ++ decimal count ++ suffix) (10 + i_size H);;
          split_tags fuel cwd k suffix (count + 1) s2
      end
  end.

(** src/split.cc:91-123 [split_file]. *)
Definition split_file (cwd p suffix : bytes) : FS unit := fun fs =>
  let k := resolve cwd p in
  match find_node k fs with
  | Some (File data) =>
      (run s1 <- split_tags (S (List.length data)) cwd k suffix 0 (mkIs data 0 all_bits 0);;
       run (i, s2) <- on_stream k s1 ends_in_id3v1;;
       run (here, s3) <- on_stream k s2 tellg;;
       run s4 <- xfer_bytes cwd k s3 (B "track" ++ suffix) (wrap64 (v1i_start i + 2 ^ 64 - here));;
       if v1i_start i =? v1i_end i then fret tt
       else run _ <- xfer_bytes cwd k s4 (B "id3v1" ++ suffix) (wrap64 (v1i_end i + 2 ^ 64 - v1i_start i));;
            fret tt) fs
  | _ => fthrow IosFailure fs
  end.
