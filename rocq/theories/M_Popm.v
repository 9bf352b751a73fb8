(** * Model: the popm command (src/popm.cc). *)
From Verif Require Import Base M_Ints M_Stream M_Id3v1 M_Payload M_Frame M_Tag22 M_Tag23 M_Tag24 M_Charset M_Lookup M_Read.

(** src/popm.cc:200-232 and 450-457: the options; [o_increment] is
    [pc_policy::increment], [o_dry] the [dry_run] of the base class. *)
Inductive frame_policy := Both | PcntOnly | PopmOnly.
Record popm_opts := mkPopmOpts { o_rating : option N; o_policy : frame_policy; o_owner : option bytes;
                                 o_count : N; o_increment : bool; o_dry : bool }.

Definition pcnt_only (o : popm_opts) : bool := match o_policy o with PcntOnly => true | _ => false end.
Definition popm_only (o : popm_opts) : bool := match o_policy o with PopmOnly => true | _ => false end.

(** src/popm.cc:269-272 and 291-294: the new count. *)
Definition new_count (o : popm_opts) (c : bytes) : outcome N :=
  if o_increment o then let* n := counter_value c in Ok ((o_count o + n) mod 2 ^ 64) else Ok (o_count o).

(** src/popm.cc:266-282 [process_pcnt]; what is printed is left out. *)
Definition process_pcnt (o : popm_opts) (b : bytes) (c : cframe) : outcome (cframe * N) :=
  let* n := new_count o b in
  Ok (if o_dry o then c else edit_body (BCount (reset_counter n)) c, n).

(** src/popm.cc:286-309 [process_popm]. *)
Definition process_popm (o : popm_opts) (p : popm) (c : cframe) : outcome (cframe * N) :=
  let* n := new_count o (po_counter p) in
  let rating := match o_rating o with Some r => r | None => po_rating p end in
  Ok (if o_dry o then c else edit_body (BPopm (mkPopm (po_email p) rating (reset_counter n))) c, n).

(** framesv2.hh:920-932 [popularimeter::email]: from ASCII to UTF-8. *)
Definition email_text (ic : iconv_t) (p : popm) : outcome bytes := to_string ic (po_email p) E_ASCII E_UTF_8 NoFail.

Definition owner_is (o : popm_opts) (e : bytes) : bool :=
  match o_owner o with None => true | Some w => bytes_eqb e w end.

(** src/popm.cc:352-380: the body of the loop, giving the frame, whether a PCNT
    and whether a POPM frame has been processed, and the count seen.  A frame
    with the right identifier that is not of the right class ends the cast with
    [bad_cast].  The two identifiers differ, so that at most one of the two
    conditions holds. *)
Definition popm_frame (ic : iconv_t) (v : version) (o : popm_opts) (create : bool) (c : cframe)
  : outcome (cframe * bool * bool * N) :=
  let id := f_id (c_frame c) in
  if (create || negb (popm_only o)) && bytes_eqb id (count_id v) then
    match f_body (c_frame c) with
    | BCount b =>
        if popm_only o then let* n := counter_value b in Ok (c, false, false, n)
        else let* (c', n) := process_pcnt o b c in Ok (c', true, false, n)
    | _ => Throw BadCast
    end
  else if (create || negb (pcnt_only o)) && bytes_eqb id (popm_id v) then
    match f_body (c_frame c) with
    | BPopm p =>
        let* e := email_text ic p in
        let* n := counter_value (po_counter p) in
        if owner_is o e then let* (c', n') := process_popm o p c in Ok (c', false, true, n')
        else Ok (c, false, false, n)
    | _ => Throw BadCast
    end
  else Ok (c, false, false, 0).

(** src/popm.cc:346-382: the loop; [np], [nq] and [cur] are [num_pcnt != 0],
    [num_popm != 0] and [curr_pc]. *)
Fixpoint popm_frames (ic : iconv_t) (v : version) (o : popm_opts) (create : bool) (cs : list cframe) (np nq : bool) (cur : N)
  : outcome (list cframe * bool * bool * N) :=
  match cs with
  | [] => Ok ([], np, nq, cur)
  | c :: r =>
      let* (c', p, q, n) := popm_frame ic v o create c in
      let* (r', np', nq', cur') := popm_frames ic v o create r (np || p) (nq || q) (if cur <? n then n else cur) in
      Ok (c' :: r', np', nq', cur')
  end.

(** src/popm.cc:334-448 [process_tag], on the frames of the tag: what it returns
    and the frames it leaves.  The lookup tables that [push_back] keeps are those
    of M_Lookup and are left out.  540-638: the new frames carry no flags. *)
Definition popm_tag (ic : iconv_t) (v : version) (o : popm_opts) (create : bool) (cs : list cframe)
  : outcome (bool * list cframe) :=
  let* (cs1, np, nq, cur) := popm_frames ic v o create cs false false 0 in
  let upd := nq || np in
  if create then
    let pc := if cur =? 0 then o_count o else cur in
    let mk_pcnt := negb (popm_only o) && negb np in
    let cs2 := if mk_pcnt && negb (o_dry o)
               then cs1 ++ [new_frame (mkFrame (count_id v) no_flags (BCount (reset_counter pc)))] else cs1 in
    match o_owner o, o_rating o with
    | Some w, Some r =>
        if negb (pcnt_only o) && negb nq then
          Ok (true, if negb (o_dry o)
                    then cs2 ++ [new_frame (mkFrame (popm_id v) no_flags (BPopm (make_popm w r pc)))] else cs2)
        else Ok (upd || mk_pcnt, cs2)
    | _, _ => Ok (upd || mk_pcnt, cs2)
    end
  else Ok (upd, cs1).

(** src/popm.cc:493-517 [process_v2]. *)
Definition popm_v2 (ic : iconv_t) (o : popm_opts) (create : bool) (t : anytag) : outcome (bool * anytag) :=
  match t with
  | A22 t => let* (u, cs) := popm_tag ic V22 o create (t2_frames t) in
             Ok (u, A22 (mkTag22 (t2_unsync t) (t2_comp t) (t2_pad t) cs))
  | A23 t => let* (u, cs) := popm_tag ic V23 o create (t3_frames t) in
             Ok (u, A23 (mkTag23 (t3_unsync t) (t3_exp t) (t3_ext t) (t3_pad t) cs))
  | A24 t => let* (u, cs) := popm_tag ic V24 o create (t4_frames t) in
             Ok (u, A24 (mkTag24 (t4_unsync t) (t4_exp t) (t4_foot t) (t4_ext t) (t4_pad t) cs))
  end.

(** src/popm.cc:650-660: the characters accepted as stars. *)
Definition is_star (c : N) : bool :=
  (65 <=? c) && (c <=? 90) || (97 <=? c) && (c <=? 122) || existsb (N.eqb c) (B "@#%*+").

(** [boost::lexical_cast<unsigned short>]: an optional sign and at least one
    decimal digit, with a magnitude below 2^16; a negative number is reduced
    modulo 2^16.  Digit grouping, which only a non-classic locale has, is left
    out. *)
Fixpoint decimal (l : bytes) (n : N) : option N :=
  match l with
  | [] => Some n
  | c :: r => if (48 <=? c) && (c <=? 57) && (n * 10 + (c - 48) <? 2 ^ 16) then decimal r (n * 10 + (c - 48)) else None
  end.
Definition magnitude (l : bytes) : option N := match l with [] => None | _ => decimal l 0 end.
Definition lex_ushort (l : bytes) : option N :=
  match l with
  | [] => None
  | c :: r => if c =? 45 then match magnitude r with Some n => Some ((2 ^ 16 - n) mod 2 ^ 16) | None => None end
              else if c =? 43 then magnitude r else magnitude l
  end.

(** src/popm.cc:666-682: the rating for a number of stars. *)
Definition stars (n : nat) : N :=
  match n with 1%nat => 1 | 2%nat => 64 | 3%nat => 128 | 4%nat => 196 | _ => 255 end.

(** src/popm.cc:637-685 [rating_from_text]; [None] is the [po::error]. *)
Definition rating_from_text (l : bytes) : option N :=
  let as_stars := if (1 <=? length l)%nat && (length l <=? 5)%nat && forallb is_star l then Some (stars (length l)) else None in
  match lex_ushort l with
  | Some n => if n <=? 255 then Some n else as_stars
  | None => as_stars
  end.
