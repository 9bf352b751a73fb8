(** * Model: what a stream remembers about printing: the printer and the encoding
      put into it by manipulators (scribbu/pprinter.hh, pprinter.cc, ostream.hh,
      ostream.cc).

    Streams, manipulators and allocated objects are numbered in the order in which
    they are made.  An operation on a stream or manipulator that was never made, or
    that is gone, does nothing: no program can write one.  Allocation never fails. *)
From Verif Require Import Base M_Charset M_Encodings.
#[local] Open Scope N_scope.

(** The four printers and their settings: scribbu/pprinter.hh:437-449 and 579-583,
    csv-pprinter.hh:245-249, tdf-pprinter.hh:165-169, json-pprinter.hh:131-133.
    The indentation string of the standard printer follows from the indentation. *)
Inductive printer :=
| PStandard (indent : N) (expand : bool) (v1 v2 : option enc)
| PCsv (ncomm : N) (v1 v2 : option enc) (sep : N)
| PTdf (ncomm : N) (v1 v2 : option enc) (sep : N)
| PJson (v1 v2 : option enc).

(** [clone]: pprinter.hh:569-571, csv-pprinter.hh:237-239, tdf-pprinter.hh:161-163,
    json-pprinter.hh:127-129, all by the copy constructors. *)
Definition clone (p : printer) : printer :=
  match p with
  | PStandard i x v1 v2 => PStandard i x v1 v2
  | PCsv n v1 v2 s => PCsv n v1 v2 s
  | PTdf n v1 v2 s => PTdf n v1 v2 s
  | PJson v1 v2 => PJson v1 v2
  end.

(** scribbu/pprinter.cc:401, with the defaults of pprinter.hh:432-435 and
    pprinter.cc:417-421. *)
Definition standard_printer : printer := PStandard 0 true (Some E_ASCII) None.

(** The place of a value in its enumeration: charsets.hh:56-110, 135-137. *)
Definition enc_index (e : enc) : N :=
  let fix go i l :=
    match l with
    | [] => i
    | x :: r => if bytes_eqb (enc_name x) (enc_name e) then i else go (i + 1) r
    end in go 0 enc_values.
Definition noenc_index (r : noenc) : N :=
  match r with NoFail => 0 | NoTranslit => 1 | NoIgnore => 2 end.
Definition noenc_at (n : N) : option noenc :=
  match n with 0 => Some NoFail | 1 => Some NoTranslit | 2 => Some NoIgnore | _ => None end.

(** An object of class [ienc] as it lies in memory: two [int]-sized enumerations
    (ostream.hh:386-387), low byte first. *)
Definition word_bytes (x : N) : bytes :=
  [x mod 256; x / 256 mod 256; x / 65536 mod 256; x / 16777216 mod 256].
Definition word_of (l : bytes) : N :=
  match l with
  | [a; b; c; d] => a + 256 * b + 65536 * c + 16777216 * d
  | _ => 0
  end.
Definition ienc_bytes (e : enc) (r : noenc) : bytes :=
  word_bytes (enc_index e) ++ word_bytes (noenc_index r).

(** What lies in allocated memory, and how it was allocated: a printer by [new], an
    [ienc] by [new], or a string by [strdup]. *)
Inductive block := BlPrinter (p : printer) | BlIenc (l : bytes) | BlStr (l : bytes).

(** The types through which the code calls [delete]. *)
Inductive deleted_as := AsPrinter | AsIenc | AsChar.

Definition fits (b : block) (d : deleted_as) : bool :=
  match b, d with
  | BlPrinter _, AsPrinter => true
  | BlIenc _, AsIenc => true
  | _, _ => false
  end.

(** The callbacks a stream can have: pprinter.cc:359-391, ostream.cc:76-107. *)
Inductive callback := CbPrinter | CbIenc.

(** A stream: the two [pword]s (pprinter.cc:330-335, ostream.cc:30-35) and the
    callbacks, the last registered first. *)
Record ios := mkIos {
  io_open : bool;
  io_pp : option nat;
  io_ie : option nat;
  io_cbs : list callback
}.
Definition no_ios : ios := mkIos false None None [].

(** A printer manipulator: pprinter.hh:405-407. *)
Record manip := mkManip { mn_there : bool; mn_pp : option nat }.
Definition no_manip : manip := mkManip false None.

(** [w_odd] counts the deletions through a type, or by an allocator, other than the
    one the memory came from.  These are undefined by the standard; the model goes on
    as the usual allocators do, and frees the memory. *)
Record world := mkWorld {
  w_heap : nat -> option block;
  w_next : nat;
  w_ios : nat -> ios;
  w_nios : nat;
  w_man : nat -> manip;
  w_nman : nat;
  w_odd : nat
}.

Definition empty_world : world :=
  mkWorld (fun _ => None) 0 (fun _ => no_ios) 0 (fun _ => no_manip) 0 0.

Definition upd {A} (f : nat -> A) (k : nat) (v : A) : nat -> A :=
  fun x => if Nat.eqb x k then v else f x.

Definition set_ios (s : nat) (x : ios) (w : world) : world :=
  mkWorld (w_heap w) (w_next w) (upd (w_ios w) s x) (w_nios w) (w_man w) (w_nman w) (w_odd w).
Definition set_man (m : nat) (x : manip) (w : world) : world :=
  mkWorld (w_heap w) (w_next w) (w_ios w) (w_nios w) (upd (w_man w) m x) (w_nman w) (w_odd w).

(** [new] and [strdup]. *)
Definition alloc (b : block) (w : world) : nat * world :=
  (w_next w,
   mkWorld (upd (w_heap w) (w_next w) (Some b)) (S (w_next w)) (w_ios w) (w_nios w)
           (w_man w) (w_nman w) (w_odd w)).

(** [delete]: of a null pointer nothing; of memory that is not allocated, undefined. *)
Definition delete (d : deleted_as) (p : option nat) (w : world) : outcome world :=
  match p with
  | None => Ok w
  | Some a =>
      match w_heap w a with
      | None => UB Dangling
      | Some b =>
          Ok (mkWorld (upd (w_heap w) a None) (w_next w) (w_ios w) (w_nios w) (w_man w)
                      (w_nman w) (w_odd w + (if fits b d then 0 else 1))%nat)
      end
  end.

(** scribbu/pprinter.cc:365-375 and ostream.cc:81-91, [erase_event]: the pointer
    stays in the stream. *)
Definition on_erase (s : nat) (c : callback) (w : world) : outcome world :=
  match c with
  | CbPrinter => delete AsPrinter (io_pp (w_ios w s)) w
  | CbIenc => delete AsChar (io_ie (w_ios w s)) w
  end.

(** [strdup]: the bytes up to the first zero byte, and it. *)
Fixpoint cstr (l : bytes) : outcome bytes :=
  match l with
  | [] => UB OutOfBounds
  | b :: r => if b =? 0 then Ok [0] else let* x := cstr r in Ok (b :: x)
  end.

(** scribbu/pprinter.cc:376-390 and ostream.cc:92-106, [copyfmt_event]. *)
Definition on_copyfmt (s : nat) (c : callback) (w : world) : outcome world :=
  let st := w_ios w s in
  match c with
  | CbPrinter =>
      match io_pp st with
      | None => Ok w
      | Some a =>
          match w_heap w a with
          | Some (BlPrinter p) =>
              let '(n, w1) := alloc (BlPrinter (clone p)) w in
              Ok (set_ios s (mkIos (io_open st) (Some n) (io_ie st) (io_cbs st)) w1)
          | _ => UB Dangling
          end
      end
  | CbIenc =>
      match io_ie st with
      | None => Ok w
      | Some a =>
          match w_heap w a with
          | Some (BlIenc l) | Some (BlStr l) =>
              let* x := cstr l in
              let '(n, w1) := alloc (BlStr x) w in
              Ok (set_ios s (mkIos (io_open st) (io_pp st) (Some n) (io_cbs st)) w1)
          | _ => UB Dangling
          end
      end
  end.

Fixpoint call_all (f : callback -> world -> outcome world) (l : list callback) (w : world) :
  outcome world :=
  match l with
  | [] => Ok w
  | c :: r => let* w1 := f c w in call_all f r w1
  end.

(** [basic_ios::copyfmt] of the standard library: nothing for a stream and itself;
    otherwise the callbacks for [erase_event], then the words and the callbacks of the
    other stream, then the callbacks for [copyfmt_event].  Both run the last registered
    callback first.  (Flags, locale and exception mask are not modelled.) *)
Definition copyfmt (d s : nat) (w : world) : outcome world :=
  if Nat.eqb d s then Ok w
  else
    let* w1 := call_all (on_erase d) (io_cbs (w_ios w d)) w in
    let src := w_ios w1 s in
    let w2 := set_ios d (mkIos (io_open (w_ios w1 d)) (io_pp src) (io_ie src) (io_cbs src)) w1 in
    call_all (on_copyfmt d) (io_cbs src) w2.

(** [~ios_base] of the standard library: the callbacks for [erase_event]. *)
Definition close (s : nat) (w : world) : outcome world :=
  let* w1 := call_all (on_erase s) (io_cbs (w_ios w s)) w in
  Ok (set_ios s no_ios w1).

(** scribbu/pprinter.cc:337-356 [do_manip], with [take], 322-328.  The trivial sentry
    (ostream.hh:273-281) lets it run whatever the stream's state. *)
Definition do_manip (m s : nat) (w : world) : outcome world :=
  let st := w_ios w s in
  let cbs := match io_pp st with None => CbPrinter :: io_cbs st | Some _ => io_cbs st end in
  let taken := mn_pp (w_man w m) in
  let w1 := set_man m (mkManip (mn_there (w_man w m)) None) w in
  let w2 := set_ios s (mkIos (io_open st) taken (io_ie st) cbs) w1 in
  delete AsPrinter (io_pp st) w2.

(** scribbu/ostream.cc:37-56 [ienc::insert]. *)
Definition ienc_insert (e : enc) (r : noenc) (s : nat) (w : world) : outcome world :=
  let st := w_ios w s in
  let cbs := match io_ie st with None => CbIenc :: io_cbs st | Some _ => io_cbs st end in
  let '(n, w1) := alloc (BlIenc (ienc_bytes e r)) w in
  let w2 := set_ios s (mkIos (io_open st) (io_pp st) (Some n) cbs) w1 in
  delete AsIenc (io_ie st) w2.

(** scribbu/ostream.cc:58-74 [ienc::retrieve]: reading past the end of the memory, or
    a number that is none of the enumeration's, is undefined. *)
Definition ienc_retrieve (s : nat) (w : world) : outcome (enc * noenc) :=
  match io_ie (w_ios w s) with
  | None => Ok (E_UTF_8, NoFail)
  | Some a =>
      match w_heap w a with
      | Some (BlIenc l) | Some (BlStr l) =>
          if (length l <? 8)%nat then UB OutOfBounds
          else match nth_error enc_values (N.to_nat (word_of (firstn 4 l))),
                     noenc_at (word_of (firstn 4 (skipn 4 l))) with
               | Some e, Some r => Ok (e, r)
               | _, _ => UB Uninitialised
               end
      | _ => UB Dangling
      end
  end.

(** scribbu/pprinter.cc:395-412 [get_pretty_printer]. *)
Definition get_pretty_printer (s : nat) (w : world) : outcome printer :=
  match io_pp (w_ios w s) with
  | None => Ok standard_printer
  | Some a => match w_heap w a with Some (BlPrinter p) => Ok p | _ => UB Dangling end
  end.

(** What a program can do. *)
Inductive op :=
| NewStream                              (* make a stream *)
| NewManip (p : printer)                 (* make a manipulator holding a printer *)
| Insert (s m : nat)                     (* stream << manipulator *)
| DropManip (m : nat)                    (* the manipulator's destructor *)
| SetOut (s : nat) (e : enc) (r : noenc) (* narrow output stream << ienc *)
| SetIn (s : nat) (e : enc) (r : noenc)  (* input stream >> ienc *)
| CopyFmt (d s : nat)                    (* d.copyfmt(s) *)
| CloseStream (s : nat).                 (* the stream's destructor *)

(** One operation.  [SetOut] is ostream.cc:111-128: it throws [bad_code_unit], which
    the program is taken to catch.  [SetIn] is ostream.cc:149-162.  [DropManip] is
    pprinter.cc:304-308. *)
Definition do_op (o : op) (w : world) : outcome world :=
  match o with
  | NewStream =>
      Ok (mkWorld (w_heap w) (w_next w) (upd (w_ios w) (w_nios w) (mkIos true None None []))
                  (S (w_nios w)) (w_man w) (w_nman w) (w_odd w))
  | NewManip p =>
      let '(n, w1) := alloc (BlPrinter p) w in
      Ok (mkWorld (w_heap w1) (w_next w1) (w_ios w1) (w_nios w1)
                  (upd (w_man w1) (w_nman w1) (mkManip true (Some n))) (S (w_nman w1)) (w_odd w1))
  | Insert s m =>
      if io_open (w_ios w s) && mn_there (w_man w m) then do_manip m s w else Ok w
  | DropManip m =>
      if mn_there (w_man w m) then
        let* w1 := delete AsPrinter (mn_pp (w_man w m)) w in
        Ok (set_man m no_manip w1)
      else Ok w
  | SetOut s e r =>
      if io_open (w_ios w s) && char_unit e then ienc_insert e r s w else Ok w
  | SetIn s e r =>
      if io_open (w_ios w s) then ienc_insert e r s w else Ok w
  | CopyFmt d s =>
      if io_open (w_ios w d) && io_open (w_ios w s) then copyfmt d s w else Ok w
  | CloseStream s =>
      if io_open (w_ios w s) then close s w else Ok w
  end.

Fixpoint run (l : list op) (w : world) : outcome world :=
  match l with
  | [] => Ok w
  | o :: r => let* w1 := do_op o w in run r w1
  end.
