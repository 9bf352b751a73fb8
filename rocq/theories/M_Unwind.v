(** * Model: what the Scheme procedures acquire and release, however they end
      (scribbu/dynwind-context.hh, dynwind-context.cc, scheme.cc, scheme-serde.cc). *)
From Verif Require Import Base.

(** How a piece of code ends: by returning; by throwing a C++ exception, which runs
    the destructors of the objects it leaves; by raising an error of the
    interpreter's, which unwinds the interpreter's own contexts and runs no
    destructor. *)
Inductive exit := Returned | Thrown | Raised.

(** What C++ objects hold: an open file, an open directory, memory. *)
Inductive holding := File | Directory | Memory.

(** What is seen of a run: a C string is got from the interpreter, and freed; an object
    is constructed, and destroyed; an error is raised. *)
Inductive event :=
| Got (i : nat) | Freed (i : nat)
| Opened (o : holding) (i : nat) | Closed (o : holding) (i : nat)
| Raising.

(** The code, as far as this goes.  (Simplified: which of several ways it takes, how
    often it goes round a loop and which calls fail are left open; a call into the
    library that opens files and calls nothing of the interpreter's is one call.
    Exception objects are not among what is held.) *)
Inductive code :=
| Skip
| Cxx                            (* a call into C++: it may throw *)
| Guile                          (* a call into the interpreter: it may raise *)
| Fail                           (* [scm_error], [scm_misc_error] *)
| Str                            (* [ctx.free_locale_string], [free_utf8_string], [free] *)
| Local (o : holding) (c : code) (* an object, and the rest of its block *)
| Seq (a b : code)
| Choice (a b : code)
| Loop (c : code)
| Ctx (c : code)                 (* [dynwind_context ctx;], and the rest of its block *)
| Try (c h : code)               (* [try { c } catch (const exception&) { h }] *)
| Caught (c : code).             (* [scm_c_catch], with a handler that returns *)

(** [exec n c e r tr m]: [c] can end with [e], [tr] being seen; [r] are the strings it has
    registered with the context around it (dynwind-context.cc:32-44: [scm_dynwind_free]
    takes the innermost).  Names from [n] on are free before, from [m] on after. *)
Definition closing (e : exit) (o : holding) (i : nat) : list event :=
  match e with Raised => [] | _ => [Closed o i] end.
Inductive exec : nat -> code -> exit -> list nat -> list event -> nat -> Prop :=
| x_skip n : exec n Skip Returned [] [] n
| x_cxx n : exec n Cxx Returned [] [] n
| x_throw n : exec n Cxx Thrown [] [] n
| x_guile n : exec n Guile Returned [] [] n
| x_raise n : exec n Guile Raised [] [Raising] n
| x_fail n : exec n Fail Raised [] [Raising] n
| x_str n : exec n Str Returned [n] [Got n] (S n)
| x_nostr n : exec n Str Raised [] [Raising] n
| x_local n o c e r tr m : exec (S n) c e r tr m ->
    exec n (Local o c) e r (Opened o n :: tr ++ closing e o n) m
| x_seq n a b r tr m e r' tr' m' : exec n a Returned r tr m -> exec m b e r' tr' m' ->
    exec n (Seq a b) e (r ++ r') (tr ++ tr') m'
| x_cut n a b e r tr m : exec n a e r tr m -> e <> Returned -> exec n (Seq a b) e r tr m
| x_left n a b e r tr m : exec n a e r tr m -> exec n (Choice a b) e r tr m
| x_right n a b e r tr m : exec n b e r tr m -> exec n (Choice a b) e r tr m
| x_done n c : exec n (Loop c) Returned [] [] n
| x_round n c r tr m e r' tr' m' : exec n c Returned r tr m -> exec m (Loop c) e r' tr' m' ->
    exec n (Loop c) e (r ++ r') (tr ++ tr') m'
| x_break n c e r tr m : exec n c e r tr m -> e <> Returned -> exec n (Loop c) e r tr m
(* dynwind-context.hh:35: the destructor; or Guile, when it unwinds *)
| x_ctx n c e r tr m : exec n c e r tr m -> exec n (Ctx c) e [] (tr ++ map Freed (rev r)) m
| x_try n c h e r tr m : exec n c e r tr m -> e <> Thrown -> exec n (Try c h) e r tr m
| x_handle n c h r tr m e r' tr' m' : exec n c Thrown r tr m -> exec m h e r' tr' m' ->
    exec n (Try c h) e (r ++ r') (tr ++ tr') m'
| x_pass n c e r tr m : exec n c e r tr m -> e <> Raised -> exec n (Caught c) e r tr m
| x_caught n c r tr m : exec n c Raised r tr m ->
    exec n (Caught c) Returned [] (tr ++ map Freed (rev r)) m.

Fixpoint seqs (l : list code) : code :=
  match l with
  | [] => Skip
  | c :: r => Seq c (seqs r)
  end.

(** ** The procedures *)

(** scheme.cc:278-380 [read_id3v1_tag]: 288-289 the path and the file, 291 the tag, 300-301
    the object, 303-325 five strings, 327-346 the slots, 350-369 three strings more. *)
Definition slot (c : code) : code := Seq Cxx (Local Memory (Seq Guile c)).
Definition fields_v1 : code := slot (slot (slot (slot (slot (Seq Guile (Choice Skip (slot (slot (slot Skip))))))))).
Definition read_id3v1 : code :=
  Try (Ctx (seqs [Str; Cxx; Local File (Seq Cxx (Choice Skip (Local Memory (Seq Guile fields_v1))))]))
  Fail.

(** scheme-serde.cc:364-790 [scm_from_id3v2_tag] and what it calls: objects are made, strings
    converted and handed over. *)
Definition from_tag : code := Loop (Choice Guile (Seq Cxx (Local Memory Guile))).

(** scheme.cc:395-440 [read_tagset]: 407 the path and the file, 412-418 the tags, 422-427 the
    objects, 431 the list. *)
Definition read_tagset : code :=
  Try (Ctx (seqs [Str; Cxx; Local File (Local Memory (seqs
    [Try Cxx Fail; Local Memory (seqs [Loop from_tag; Guile])]))]))
  Fail.

(** scheme.cc:496-537 [with_track_in], with 449-455 [with_track_in_thunk]. *)
Definition with_track_in : code :=
  Try (Ctx (seqs [Str; Local Memory (Seq Cxx (Local Directory (Loop
    (Seq (Choice Skip (seqs [Guile; Caught (Seq read_tagset read_id3v1); Guile])) Cxx))))]))
  Fail.

(** scheme.cc:551-684 [write_id3v1_tag]: 566-611 the slots, 619 the tag, 621-673 its fields, and
    the errors of 634, 656 and 667, 675 the file. *)
Definition write_id3v1 : code :=
  Seq (Choice Skip Fail)
    (Try (Ctx (seqs [Str; Str; Str; Choice Skip Str; Str; Guile; Choice Skip Guile; Str; Choice Skip Guile;
       Str; Str; Local Memory (seqs [Cxx; Choice Skip Fail; Cxx; Choice Skip Fail; Choice Skip Fail; Str; Cxx])]))
     Fail).

(** scheme-serde.cc:792-1460, the functions for frames: a context, strings and C++ strings
    (and sets of them), and the frame; 1795-1900 [ser_2_2], [ser_2_3], [ser_2_4]. *)
Definition ser_fields : code := Loop (Choice Guile (Choice Cxx (Choice Fail Str))).
Definition ser_frame : code := Ctx (Seq ser_fields (Local Memory (Seq ser_fields (Local Memory ser_fields)))).
Definition ser : code :=
  Seq (Choice Skip Fail) (Ctx (Seq Str (Local Memory (Choice ser_frame (Try ser_frame ser_frame))))).

(** scheme.cc:705-755 [write_tagset]: 712-716 the arguments, 720-728 the choice, 733-739 the tags, 742-751
    the file. *)
Definition write_tagset : code :=
  Try (seqs [Guile; Choice Skip Fail; Local Memory (seqs
    [Guile; Loop (seqs [Guile; Local Memory (Loop ser)]); Ctx (seqs [Str; Local Memory Cxx])])])
  Fail.
