(** * Model: how tags and frames are printed by the interpreter (scheme/scribbu.scm). *)
From Verif Require Import Base M_Tagset M_Scheme M_Scheme2.
#[local] Open Scope N_scope.

(** What Guile prints for values that are not strings, symbols or numbers ([~a]),
    and for any value when it is to be read back ([~s]).  Every theorem
    quantifies over it. *)
Record printer := mkPrinter { p_shown : scm -> bytes; p_written : scm -> bytes }.
(** [~a] and [~d]. *)
Definition show (P : printer) (x : scm) : bytes :=
  match x with
  | SStr s => s
  | SSym s => s
  | SInt n => if (n <? 0)%Z then B "-" ++ decimal (Z.to_N (- n)) else decimal (Z.to_N n)
  | _ => p_shown P x
  end.

(** [~2,'0x]: two digits at least.  (Simplified: [format] is that of
    [(ice-9 format)], which the expected output of test/test-display shows; with
    [simple-format] the directive is an error.) *)
Definition hex_digit (d : N) : N := if d <? 10 then 48 + d else 87 + d.
Definition hex2 (x : N) : bytes := [hex_digit (x / 16); hex_digit (x mod 16)].

(** scribbu.scm:205-222 [pp-bytevector].  The loops: [n] turns left, [i] the
    index, which is checked. *)
Fixpoint hex_loop (n i : nat) (bv : bytes) (hex : list bytes) : gres (list bytes) :=
  match n with
  | O => GOk hex
  | S n => match nth_error bv i with
           | Some x => hex_loop n (S i) bv (hex ++ [hex2 x ++ B " "])
           | None => GRaise BadRange
           end
  end.
Fixpoint ascii_loop (n i : nat) (bv : bytes) (ascii : list bytes) : gres (list bytes) :=
  match n with
  | O => GOk ascii
  | S n => match nth_error bv i with
           | Some x => ascii_loop n (S i) bv (ascii ++ [[if (31 <? x) && (x <? 127) then x else 46]])
           | None => GRaise BadRange
           end
  end.
Definition pp_bytevector (x : scm) : gres bytes :=
  match x with
  | SBytes bv =>
      let n := Nat.min (length bv) 8 in
      let! hex := hex_loop n 0 bv [] in
      let! ascii := ascii_loop n 0 bv [] in
      GOk (B "{" ++ concat hex ++ B " <" ++ concat ascii ++ B ">}")
  | _ => GRaise WrongType
  end.

(** [slot-ref x 'text]: where the classes have a slot of this name
    (scribbu.scm:227-228, 233-236, 242-244). *)
Definition text_slot (x : scm) : gres scm :=
  match x with
  | SObj CText slots => slot 5 slots
  | SObj CComment slots => slot 7 slots
  | SObj CUdt slots => slot 6 slots
  | _ => GRaise MiscErr
  end.

(** scribbu.scm:280-293: the text of the first of the frames found. *)
Definition first_named (tag : scm) (f : bytes) : gres scm :=
  let! l := get_frames_scm tag f in
  match l with
  | SPair a _ => text_slot a
  | _ => GOk (SStr [])
  end.

(** The methods of [display]: scribbu.scm:141-145 (ID3v1 tags), 224-225, 230-231,
    238-240, 246-247, 252-253, 260-262, 268-269, 275-276 (frames), 284-293 (ID3v2
    tags).  For anything else Guile's own are used. *)
Definition display (P : printer) (x : scm) : gres bytes :=
  match x with
  | SObj CV1 slots =>
      let! artist := slot 1 slots in
      let! title := slot 0 slots in
      GOk (B "<id3v1-tag " ++ show P artist ++ B " - " ++ show P title ++ B ">")
  | SObj CUnk slots =>
      let! idt := slot 5 slots in
      let! data := slot 6 slots in
      let! pp := pp_bytevector data in
      GOk (B "<unk-frame " ++ p_written P idt ++ B " " ++ pp ++ B ">")
  | SObj CText slots =>
      let! id := slot 0 slots in
      let! text := slot 5 slots in
      GOk (B "<" ++ show P id ++ B " " ++ p_written P text ++ B ">")
  | SObj CComment slots =>
      let! lang := slot 5 slots in
      let! dsc := slot 6 slots in
      let! text := slot 7 slots in
      GOk (B "<comment (" ++ show P lang ++ B ", " ++ show P dsc ++ B ") " ++ show P text ++ B ">")
  | SObj CUdt slots =>
      let! dsc := slot 5 slots in
      GOk (B "<user-defined-text " ++ show P dsc ++ B ">")
  | SObj CCount slots =>
      let! count := slot 5 slots in
      GOk (B "<play-count " ++ show P count ++ B ">")
  | SObj CPopm slots =>
      let! email := slot 5 slots in
      let! rating := slot 6 slots in
      let! count := slot 7 slots in
      GOk (B "<popularimeter " ++ show P email ++ B ", " ++ show P rating ++ B ", " ++ show P count ++ B ">")
  | SObj CCloud slots =>
      let! owner := slot 5 slots in
      let! tags := slot 6 slots in
      GOk (B "<tag cloud (" ++ show P owner ++ B ") " ++ show P tags ++ B ">")
  | SObj CPriv slots =>
      let! owner := slot 5 slots in
      let! data := slot 6 slots in
      let! pp := pp_bytevector data in
      GOk (B "<private (" ++ show P owner ++ B ") " ++ pp ++ B ">")
  | SObj CTag slots =>
      let! artist := first_named x (B "artist-frame") in
      let! title := first_named x (B "title-frame") in
      let! padding := slot 2 slots in
      GOk (B "<id3v2-tag " ++ show P artist ++ B " - " ++ show P title ++ B " (" ++ show P padding ++ B " bytes padding)>")
  | _ => GOk (show P x)
  end.
