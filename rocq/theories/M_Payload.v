(** * Model: frame payloads (scribbu/framesv2.hh, framesv2.cc, framesv22.hh,
    framesv23.hh, framesv23.cc, framesv24.hh).

    A parser gets the frame's payload [l] and [after], the bytes of the tag's
    buffer that follow it: some parsers look past the end of the payload, which
    is out of bounds only if nothing follows. *)
From Verif Require Import Base.

(** scribbu/id3v2.hh [id3v2_version]. *)
Inductive version := V22 | V23 | V24.

(** [std::find(p0, p1, 0)]: the bytes before the first NUL and, if there is
    one, those after it. *)
Fixpoint split0 (l : bytes) : bytes * option bytes :=
  match l with
  | [] => ([], None)
  | b :: r => if b =? 0 then ([], Some r) else let '(x, y) := split0 r in (b :: x, y)
  end.

(** ** Play counters *)

(** scribbu/framesv2.cc:1074-1095 [play_count::count], and 1158-1179
    [popularimeter::count]. [x] stays uninitialised for an empty counter. *)
Definition counter_value (c : bytes) : outcome N :=
  match c with
  | [] => UB Uninitialised
  | [a] => Ok a
  | [a; b] => Ok (N.lor (N.shiftl a 8) b)
  | [a; b; c] => Ok (N.lor (N.lor (N.shiftl a 16) (N.shiftl b 8)) c)
  | [a; b; c; d] => Ok (N.lor (N.lor (N.lor (N.shiftl a 24) (N.shiftl b 16)) (N.shiftl c 8)) d)
  | _ => Throw DomainError
  end.

(** scribbu/framesv2.cc:1148-1151, the loop that fills [counter_] from the back. *)
Fixpoint counter_digits (cb : nat) (n : N) : bytes :=
  match cb with
  | O => []
  | S k => counter_digits k (N.shiftr n 8) ++ [N.land 255 n]
  end.

(** scribbu/framesv2.cc:1134-1152 [play_count::reset_counter] (1240-1258 for the
    popularimeter).  [floor(log2(n)/8.)] is computed in floating point; below
    2^48 that is exact and equal to [N.log2 n / 8]. *)
Definition reset_counter (n : N) : bytes :=
  if n =? 0 then [0] else counter_digits (N.to_nat (N.log2 n / 8 + 1)) n.

(** scribbu/framesv2.hh:825-827, 942-943 [inc]. *)
Definition counter_inc (c : bytes) : outcome bytes :=
  let* n := counter_value c in Ok (reset_counter (n + 1)).

(** ** Unique file identifiers *)
Record ufid := mkUfid { uf_owner : bytes; uf_id : bytes }.

(** scribbu/framesv2.hh:466-480. *)
Definition parse_ufid (l : bytes) : ufid :=
  match split0 l with
  | (o, Some r) => mkUfid o r
  | (o, None) => mkUfid o []
  end.
(** scribbu/framesv2.cc:625-629 [size]. *)
Definition size_ufid (u : ufid) : N := len (uf_owner u) + 1 + len (uf_id u).
(** scribbu/framesv2.cc:647-660 [write]. *)
Definition write_ufid (u : ufid) : bytes := uf_owner u ++ [0] ++ uf_id u.

(** ** Encryption method registrations *)
Record encr := mkEncr { en_email : bytes; en_method : option N; en_data : bytes }.

(** scribbu/framesv2.hh:531-545. *)
Definition parse_encr (l : bytes) : encr :=
  match split0 l with
  | (e, None) => mkEncr e None []
  | (e, Some []) => mkEncr e None []
  | (e, Some (m :: r)) => mkEncr e (Some m) r
  end.
(** scribbu/framesv2.cc:680-685 [size]. *)
Definition size_encr (e : encr) : N := len (en_email e) + 1 + 1 + len (en_data e).
(** scribbu/framesv2.cc:703-717 [write]: the NUL after the e-mail is not written. *)
Definition write_encr (e : encr) : outcome bytes :=
  match en_method e with
  | None => UB Uninitialised
  | Some m => Ok (en_email e ++ [m] ++ en_data e)
  end.

(** ** Text frames *)
Record text := mkText { tx_unicode : N; tx_text : bytes }.

(** scribbu/framesv22.hh:335-343, framesv23.hh:680-693, framesv24.hh:426-441.
    An empty payload makes the iterator pass the end before [std::copy]. *)
Definition parse_text (l after : bytes) : outcome text :=
  match l with
  | u :: r => Ok (mkText u r)
  | [] => match after with [] => UB OutOfBounds | _ => UB BadIterator end
  end.
(** scribbu/framesv22.cc [id3v2_2_text_frame::size], framesv23.cc, framesv24.cc. *)
Definition size_text (t : text) : N := 1 + len (tx_text t).
Definition write_text (t : text) : bytes := tx_unicode t :: tx_text t.

(** ** Strings terminated by one or two NULs *)

(** scribbu/framesv2.hh:85-106 [find_trailing_null] with code unit 1: the number
    of bytes before the terminator.  Each non-NUL byte's successor is read too. *)
Fixpoint find_null1 (l after : bytes) : outcome N :=
  match l with
  | [] => Ok 0
  | b :: r =>
      if b =? 0 then Ok 0
      else match r ++ after with
           | [] => UB OutOfBounds
           | _ => let* n := find_null1 r after in Ok (1 + n)
           end
  end.

(** The same with code unit 2: may step one past the end of the payload. *)
Fixpoint find_null2 (l after : bytes) : outcome N :=
  match l with
  | [] => Ok 0
  | [b0] => match after with
            | [] => UB OutOfBounds
            | b1 :: _ => Ok (if (b0 =? 0) && (b1 =? 0) then 0 else 2)
            end
  | b0 :: b1 :: r =>
      if (b0 =? 0) && (b1 =? 0) then Ok 0
      else let* n := find_null2 r after in Ok (2 + n)
  end.

Definition find_null (cu : N) (l after : bytes) : outcome N :=
  if cu =? 1 then find_null1 l after else find_null2 l after.

(** scribbu/framesv2.hh:611-618 and 720-731: description up to the terminator,
    text after it if there is room for it.  [std::copy] reads from the buffer,
    so one byte of [after] may end up in the description. *)
Definition parse_described (cu : N) (l after : bytes) : outcome (bytes * bytes) :=
  let* n := find_null cu l after in
  Ok (takeN n (l ++ after), if n + cu <=? len l then dropN (n + cu) l else []).

(** Terminator width by version and encoding byte; scribbu/framesv2.hh:602-607
    and 712-717. *)
Definition cbnil_of (v : version) (u : N) : N :=
  match v with
  | V24 => if (u =? 0) || (u =? 3) then 1 else 2
  | _ => if u =? 0 then 1 else 2
  end.

(** ** User-defined text *)
Record txxx := mkTxxx { ud_cbnil : N; ud_unicode : N; ud_desc : bytes; ud_text : bytes }.

(** scribbu/framesv2.hh:595-619.  For an empty payload the encoding byte is
    taken from what follows, and nothing else is read. *)
Definition parse_txxx (v : version) (l after : bytes) : outcome txxx :=
  match l with
  | u :: r =>
      let cu := cbnil_of v u in
      let* (d, t) := parse_described cu r after in
      Ok (mkTxxx cu u d t)
  | [] => match after with
          | [] => UB OutOfBounds
          | u :: _ => Ok (mkTxxx (cbnil_of v u) u [] [])
          end
  end.
(** scribbu/framesv2.cc:814-818 [size]. *)
Definition size_txxx (t : txxx) : N := 1 + len (ud_desc t) + ud_cbnil t + len (ud_text t).
(** scribbu/framesv2.cc:837-864 [write]. *)
Definition write_txxx (t : txxx) : bytes :=
  [ud_unicode t] ++ ud_desc t ++ (if ud_cbnil t =? 2 then [0; 0] else [0]) ++ ud_text t.

(** scribbu/scribbu.hh [use_unicode]. *)
Inductive use_unicode := uni_no | uni_yes | uni_with_bom.

(** scribbu/framesv2.cc:754-812, from scratch; [text] and [dsc] are the results
    of [convert_encoding]. *)
Definition make_txxx (v : version) (uni : use_unicode) (text dsc : bytes) : txxx :=
  match v, uni with
  | _, uni_no => mkTxxx 1 0 dsc text
  | V24, _ => mkTxxx 1 4 dsc text
  | _, _ => mkTxxx 2 1 dsc text
  end.

(** ** Comments *)
Record comm := mkComm { co_cbnil : N; co_unicode : option N; co_lang : option bytes;
                        co_desc : bytes; co_text : bytes }.

(** scribbu/framesv2.hh:699-728, the accepted encoding bytes. *)
Definition comm_unicode_ok (v : version) (u : N) : bool :=
  match v with V24 => u <=? 3 | _ => u <=? 1 end.

(** scribbu/framesv2.hh:687-752.  [dst_enc_] is not modelled (it is used by the
    setters, with iconv). *)
Definition parse_comm (v : version) (l after : bytes) : outcome comm :=
  match l with
  | [] => Ok (mkComm 1 None None [] [])
  | u :: r =>
      if comm_unicode_ok v u then
        let cu := cbnil_of v u in
        if 3 <=? len r then
          match dropN 3 r with
          | [] => Ok (mkComm cu (Some u) (Some (takeN 3 r)) [] [])
          | r' => let* (d, t) := parse_described cu r' after in
                  Ok (mkComm cu (Some u) (Some (takeN 3 r)) d t)
          end
        else Ok (mkComm cu (Some u) None [] [])
      else Throw BadUnicode
  end.
(** scribbu/framesv2.cc:973-977 [size]. *)
Definition size_comm (c : comm) : N := 4 + len (co_desc c) + co_cbnil c + len (co_text c).
(** scribbu/framesv2.cc:994-1017 [write]. *)
Definition write_comm (c : comm) : outcome bytes :=
  match co_unicode c, co_lang c with
  | Some u, Some lg =>
      Ok ([u] ++ lg ++ co_desc c ++ takeN (co_cbnil c) [0; 0] ++ co_text c)
  | _, _ => UB Uninitialised
  end.

(** scribbu/framesv2.cc:893-958, from scratch. *)
Definition make_comm (v : version) (lang : bytes) (uni : use_unicode) (text dsc : bytes) : comm :=
  match v, uni with
  | _, uni_no => mkComm 1 (Some 0) (Some lang) dsc text
  | V24, _ => mkComm 1 (Some 3) (Some lang) dsc text
  | _, _ => mkComm 2 (Some 1) (Some lang) dsc text
  end.

(** ** Popularimeters *)
Record popm := mkPopm { po_email : bytes; po_rating : N; po_counter : bytes }.

(** scribbu/framesv2.hh:899-908.  Without a NUL, or with nothing after it, the
    iterators pass the end of the payload. *)
Definition parse_popm (l after : bytes) : outcome popm :=
  match split0 l with
  | (e, Some (r :: c)) => Ok (mkPopm e r c)
  | (e, Some []) => match after with [] => UB OutOfBounds | _ => UB BadIterator end
  | (e, None) => match after with _ :: _ :: _ => UB BadIterator | _ => UB OutOfBounds end
  end.
(** scribbu/framesv2.hh:909-916, from scratch. *)
Definition make_popm (own : bytes) (rating count : N) : popm :=
  mkPopm own rating (reset_counter count).
(** scribbu/framesv2.cc:1181-1185 [size]. *)
Definition size_popm (p : popm) : N := len (po_email p) + 2 + len (po_counter p).
(** scribbu/framesv2.cc:1203-1217 [write]. *)
Definition write_popm (p : popm) : bytes := po_email p ++ [0] ++ [po_rating p] ++ po_counter p.

(** ** Private frames *)
Record priv := mkPriv { pr_email : bytes; pr_contents : bytes }.

(** scribbu/framesv23.hh:333-338. *)
Definition parse_priv (l : bytes) : outcome priv :=
  match split0 l with
  | (e, Some r) => Ok (mkPriv e r)
  | (e, None) => UB BadIterator
  end.
(** scribbu/framesv23.cc:254-259 [size]. *)
Definition size_priv (p : priv) : N := len (pr_email p) + 1 + len (pr_contents p).
(** scribbu/framesv23.cc:276-289 [write]. *)
Definition write_priv (p : priv) : bytes := pr_email p ++ [0] ++ pr_contents p.
