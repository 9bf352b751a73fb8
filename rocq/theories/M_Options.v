(** * Model: the options of the sub-commands that change files, from what
    boost::program_options makes of the command line to the exit status
    (src/text.cc, genre.cc, popm.cc, xtag.cc). *)
From Verif Require Import Base M_Ints M_Stream M_Id3v1 M_Payload M_Frame M_Tag22 M_Tag23 M_Tag24 M_Charset M_TextId M_Lookup M_Read M_Fs M_Tagset M_Process M_Dirent M_Popm M_Cmds M_Xtag.
#[local] Open Scope N_scope.

(** What a handler does with its options: [po::error], or anything else, going on
    to the files if all is well.  (All of the variables are those of one
    [po::variables_map]: switches, and options that may be missing.  What is
    printed is left out.) *)
Inductive handled (A : Type) := UsageError | Handled (x : outcome A).
Arguments UsageError {A}.
Arguments Handled {A} x.
Definition hbind {A C} (x : handled A) (f : A -> handled C) : handled C :=
  match x with
  | UsageError => UsageError
  | Handled (Ok a) => f a
  | Handled (Throw e) => Handled (Throw e)
  | Handled (UB u) => Handled (UB u)
  | Handled NonTerm => Handled NonTerm
  end.
Notation "'let&' p ':=' x 'in' k" := (hbind x (fun p => k)) (at level 61, p pattern, x at next level, right associativity).
(** What throws [po::error]. *)
Definition checked {A} (x : outcome A) : handled A := match x with Throw _ => UsageError | _ => Handled x end.
Definition wanted {A} (x : option A) : handled A := match x with Some a => Handled (Ok a) | None => UsageError end.
Definition proceed {A} (a : A) : handled A := Handled (Ok a).
(** [po::notify]: the arguments are declared as required, in the text, popm and
    xtag commands. *)
Definition required (l : list bytes) : handled unit := match l with [] => UsageError | _ => proceed tt end.

(** The [catch] clauses at the end of each handler (src/text.cc:528-543, and so
    on): the status, with what is done to the files. *)
Definition conclude_run (r : handled (FS unit)) : FS N := fun fs =>
  match r with
  | UsageError => ([], (Ok 2, fs))
  | Handled (Ok m) => match m fs with
                      | (l, (Ok _, fs1)) => (l, (Ok 0, fs1))
                      | (l, (Throw _, fs1)) => (l, (Ok 1, fs1))
                      | (l, (UB u, fs1)) => (l, (UB u, fs1))
                      | (l, (NonTerm, fs1)) => (l, (NonTerm, fs1))
                      end
  | Handled (Throw _) => ([], (Ok 1, fs))
  | Handled (UB u) => ([], (UB u, fs))
  | Handled NonTerm => ([], (NonTerm, fs))
  end.

(** [process_dirent_args] with a [tagset_processor]; the processor starts afresh
    with every file, as only what it prints depends on the ones before. *)
Definition over_files {S} (z : zlib) (passes : nat) (e : env) (entries : bytes -> list bytes) (P : processor S) (s : S) (p : policies)
  (args : list bytes) : FS unit :=
  process_dirent_args (e_cwd e) (fun path => run _ <- process_file z passes e P p path s;; fret tt) entries args.

(** --create-v2 and --always-create-v2: src/text.cc:500-511, xtag.cc:592-603 and
    popm.cc:898-911. *)
Definition creation (create always : bool) : option v2_creation :=
  match always, create with
  | true, true => None
  | false, true => Some V2WhenV1Present
  | true, false => Some V2Always
  | false, false => Some V2Never
  end.

(** ** popm *)
Record popm_vm := mkPopmVm { pv_adjust : bool; pv_always : bool; pv_backups : bool; pv_frame : bool; pv_create : bool; pv_dry : bool;
  pv_pcnt_only : bool; pv_popm_only : bool; pv_increment : option N; pv_count : option N; pv_owner : option bytes;
  pv_tag : option (list N); pv_rating : option bytes; pv_args : list bytes }.

(** src/popm.cc:824-937.  The indexes given with --tag are put in another variable
    than the one that is used (852-855). *)
Definition popm_options (vm : popm_vm) : handled (popm_opts * bool * policies) :=
  let& _ := required (pv_args vm) in
  let tags : list N := [] in
  let& rating := match pv_rating vm with
                 | None => proceed None
                 | Some s => let& n := wanted (rating_from_text s) in proceed (Some n)
                 end in
  let& fp := match pv_pcnt_only vm, pv_popm_only vm with
             | true, true => UsageError
             | true, false => proceed PcntOnly
             | false, true => proceed PopmOnly
             | false, false => proceed Both
             end in
  let& (pc, pol) := match pv_increment vm, pv_count vm with
                    | Some _, Some _ => UsageError
                    | Some n, None => proceed (n, true)
                    | None, Some n => proceed (n, false)
                    | None, None => proceed (1, true)
                    end in
  let& c := wanted (creation (pv_create vm) (pv_always vm)) in
  proceed (mkPopmOpts rating fp (pv_owner vm) pc pol (pv_dry vm), pv_frame vm,
           popm_policies tags c (pv_dry vm) (pv_adjust vm) (pv_backups vm)).
(** src/popm.cc:939-952. *)
Definition run_popm (z : zlib) (passes : nat) (e : env) (entries : bytes -> list bytes) (w : world) (vm : popm_vm) : FS N :=
  conclude_run (let& (o, create, p) := popm_options vm in
                proceed (over_files z passes e entries (popm_processor w o create) tt p (pv_args vm))).

(** ** text *)
Record text_vm := mkTextVm { tv_adjust : bool; tv_always : bool; tv_create : bool; tv_backups : bool; tv_encoding : option enc;
  tv_album : option bytes; tv_artist : option bytes; tv_encoded_by : option bytes; tv_genre : option bytes; tv_title : option bytes;
  tv_track : option bytes; tv_year : option bytes; tv_delete : option (list bytes); tv_tag : option (list N); tv_args : list bytes }.

(** src/text.cc:463-486: the map, in the order of its keys. *)
Definition text_adds (vm : text_vm) : list (tframe * bytes) :=
  let opt k o := match o with Some s => [(k, s)] | None => [] end in
  opt tf_talb (tv_album vm) ++ opt tf_tcon (tv_genre vm) ++ opt tf_tenc (tv_encoded_by vm) ++ opt tf_tit2 (tv_title vm) ++
  opt tf_tpe1 (tv_artist vm) ++ opt tf_trck (tv_track vm) ++ opt tf_tyer (tv_year vm).
(** src/text.cc:488-493.  ([lexical_cast] of a text with white space fails; so
    does looking it up, which is what is done here.) *)
Fixpoint text_dels (l : list bytes) : outcome (list tframe) :=
  match l with
  | [] => Ok []
  | s :: r => let* k := tframe_of_name s in let* ks := text_dels r in Ok (k :: ks)
  end.

Definition given {A} (o : option (list A)) : list A := match o with Some l => l | None => [] end.
(** src/text.cc:453-526; [loc] is [encoding_from_system_locale]. *)
Definition text_options (loc : outcome enc) (vm : text_vm) : handled (text_opts * policies) :=
  let& _ := required (tv_args vm) in
  let& src := Handled match tv_encoding vm with Some x => Ok x | None => loc end in
  let& dels := Handled (text_dels (given (tv_delete vm))) in
  let& p := checked (text_policies (given (tv_tag vm)) (tv_create vm) (tv_always vm) (tv_adjust vm) (tv_backups vm)) in
  proceed (mkTextOpts dels (text_adds vm) src, p).
Definition run_text (z : zlib) (passes : nat) (e : env) (entries : bytes -> list bytes) (w : world) (loc : outcome enc) (vm : text_vm) : FS N :=
  conclude_run (let& (o, p) := text_options loc vm in
                proceed (over_files z passes e entries (text_processor w o) tt p (tv_args vm))).

(** ** genre *)
Record genre_vm := mkGenreVm { gv_adjust : bool; gv_always_v2 : bool; gv_always_v1 : bool; gv_backups : bool; gv_create_v2 : bool;
  gv_create_v1 : bool; gv_dry : bool; gv_list : bool; gv_v1_only : bool; gv_v2_only : bool; gv_winamp : option N; gv_genre : option bytes;
  gv_Genre : option bytes; gv_v1 : option N; gv_tag : option (list N); gv_args : list bytes }.

(** [po::value<unsigned char>], with which --v1 is declared (src/genre.cc:838): the
    text is taken to be a character. *)
Definition lex_uchar (s : bytes) : option N := match s with [c] => Some c | _ => None end.

(** src/genre.cc:908-983 with [genre] (684-755); none if the genres are to be
    listed. *)
Definition genre_options (w : world) (vm : genre_vm) : handled (option (genre_choice * policies)) :=
  let& number := match gv_winamp vm with
                 | Some n => if n <? 192 then proceed n else UsageError
                 | None => proceed 255
                 end in
  if gv_list vm then proceed None else
  match gv_args vm with
  | [] => UsageError
  | _ =>
      let& (text, best) := checked (textual_genre number (match gv_genre vm with Some s => s | None => [] end)
                                                         (match gv_Genre vm with Some s => s | None => [] end)) in
      let& (v2s, v1s) := checked (scope_for_args (gv_v1_only vm) (gv_v2_only vm) (given (gv_tag vm))) in
      let& (c2, c1) := checked (creation_for_args (gv_create_v2 vm) (gv_always_v2 vm) (gv_create_v1 vm) (gv_always_v1 vm)) in
      let& g := Handled (make_genre w number (match gv_v1 vm with Some n => n | None => 255 end) text best) in
      proceed (Some (g, mkPol v2s v1s c2 c1 (gv_dry vm) (gv_adjust vm) (gv_backups vm)))
  end.
Definition run_genre (z : zlib) (passes : nat) (e : env) (entries : bytes -> list bytes) (w : world) (vm : genre_vm) : FS N :=
  conclude_run (let& r := genre_options w vm in
                match r with
                | None => proceed (fret tt)
                | Some (g, p) => proceed (over_files z passes e entries (genre_processor w g) tt p (gv_args vm))
                end).

(** ** xtag *)
Record xtag_vm := mkXtagVm { xv_adjust : bool; xv_always : bool; xv_frame : bool; xv_backups : bool; xv_create : bool; xv_dry : bool;
  xv_get : bool; xv_merge : bool; xv_owner : option bytes; xv_tag : option (list N); xv_xtags : option bytes; xv_args : list bytes }.
(** src/xtag.cc:564-634. *)
Definition xtag_options (vm : xtag_vm) : handled (xtag_opts * policies) :=
  let& _ := required (xv_args vm) in
  checked (xtag_args (xv_xtags vm) (match xv_owner vm with Some s => s | None => [] end) (xv_get vm) (xv_frame vm) (xv_merge vm) (xv_dry vm)
                     (xv_create vm) (xv_always vm) (xv_adjust vm) (xv_backups vm) (given (xv_tag vm))).
Definition run_xtag (z : zlib) (passes : nat) (e : env) (entries : bytes -> list bytes) (w : world) (vm : xtag_vm) : FS N :=
  conclude_run (let& (o, p) := xtag_options vm in
                proceed (over_files z passes e entries (xtag_processor w o) [] p (xv_args vm))).
