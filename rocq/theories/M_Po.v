(** * Model: the options of the sub-commands, from the words of the command line and
      the environment to the values that the handlers get.

    The tables of options and of environment variables are those of src/*.cc.  What
    is done with them is boost::program_options (not part of the repository; as of
    Boost 1.65 and later): [options_description::find_nothrow],
    [option_description::match], [typed_value::parse] with [validate], and [store]. *)
From Verif Require Import Base M_Ints M_Stream M_Id3v1 M_Payload M_Frame M_Tag22 M_Tag23 M_Tag24 M_Charset M_Encodings M_TextId M_Lookup M_Read M_Fs M_Split M_Tagset
  M_Process M_Dirent M_Popm M_Cmds M_Xtag M_Options M_Main.
#[local] Open Scope N_scope.

(** ** Values *)

(** src/dump.cc:74-81. *)
Inductive format := FCsv | FStandard | FJson.

(** The types that options are declared with, and their values. *)
Inductive kind := KSwitch | KText | KSize | KUint | KChar | KTexts | KSizes | KPath | KEnc | KNoenc | KFormat.
Inductive value := VSwitch (b : bool) | VText (s : bytes) | VNum (n : N) | VTexts (l : list bytes) | VNums (l : list N)
                 | VEnc (e : enc) | VNoenc (x : noenc) | VFormat (f : format).

(** White space, in the "C" locale. *)
Definition blank (c : N) : bool := ((9 <=? c) && (c <=? 13)) || (c =? 32).
(** [is >> s] without [skipws]: the word, and what is left. *)
Fixpoint word (l : bytes) : bytes * bytes :=
  match l with
  | [] => ([], [])
  | c :: r => if blank c then ([], l) else (c :: fst (word r), snd (word r))
  end.

(** src/dump.cc:271-295 [operator>>], on the word extracted. *)
Definition format_of_name (s : bytes) : outcome format :=
  if existsb (bytes_eqb s) [B "1"; B "csv"] then Ok FCsv
  else if existsb (bytes_eqb s) [B "2"; B "standard"; B "std"] then Ok FStandard
  else if existsb (bytes_eqb s) [B "3"; B "json"] then Ok FJson
  else Throw InvalidArgument.

(** [lexical_cast] by way of such an operator: an exception goes through, a text
    that is not used up is [bad_lexical_cast], which [validate] turns into
    [po::invalid_option_value]. *)
Definition cast_word {A} (f : bytes -> outcome A) (s : bytes) : handled A :=
  match f (fst (word s)) with
  | Ok a => match snd (word s) with [] => proceed a | _ => UsageError end
  | x => Handled x
  end.

(** [lexical_cast] to unsigned integers of [bits] bits: a sign may come first, and a
    minus is taken modulo.  (Grouping by the locale is left out.) *)
Fixpoint digits_value (bound acc : N) (l : bytes) : option N :=
  match l with
  | [] => Some acc
  | c :: r => if (48 <=? c) && (c <=? 57)
              then let n := 10 * acc + (c - 48) in if n <? bound then digits_value bound n r else None
              else None
  end.
Definition cast_number (bits : N) (s : bytes) : option N :=
  match s with
  | 45 :: ((_ :: _) as r) => match digits_value (2 ^ bits) 0 r with Some n => Some ((2 ^ bits - n) mod 2 ^ bits) | None => None end
  | 43 :: ((_ :: _) as r) => digits_value (2 ^ bits) 0 r
  | [] => None
  | _ => digits_value (2 ^ bits) 0 s
  end.

(** [lexical_cast<fs::path>]: the operator extracts with [std::quoted]. *)
Fixpoint unquote (l : bytes) : option bytes :=
  match l with
  | [] => None
  | 34 :: r => match r with [] => Some [] | _ => None end
  | 92 :: c :: r => match unquote r with Some s => Some (c :: s) | None => None end
  | c :: r => match unquote r with Some s => Some (c :: s) | None => None end
  end.
Definition cast_path (s : bytes) : option bytes :=
  match s with
  | [] => None
  | 34 :: r => unquote r
  | _ => match word s with (w, []) => Some w | _ => None end
  end.

(** [validate] for [bool]: without regard to case; no text is true. *)
Definition lower (s : bytes) : bytes := map (fun c => if (65 <=? c) && (c <=? 90) then c + 32 else c) s.
Definition cast_switch (s : bytes) : option bool :=
  let s := lower s in
  if existsb (bytes_eqb s) [[]; B "on"; B "yes"; B "1"; B "true"] then Some true
  else if existsb (bytes_eqb s) [B "off"; B "no"; B "0"; B "false"] then Some false
  else None.

Fixpoint cast_all {A} (f : bytes -> option A) (l : list bytes) : handled (list A) :=
  match l with
  | [] => proceed []
  | s :: r => let& a := wanted (f s) in let& t := cast_all f r in proceed (a :: t)
  end.

(** [check_first_occurrence] and [get_single_string]. *)
Definition first {A} (old : option A) : handled unit := match old with None => proceed tt | Some _ => UsageError end.
Definition single (l : list bytes) : handled bytes := match l with [s] => proceed s | _ => UsageError end.

(** [typed_value::parse]: the value for the words given, where there may be one
    already. *)
Definition parse_value (k : kind) (old : option value) (words : list bytes) : handled value :=
  match k with
  | KTexts => let l := match old with Some (VTexts l) => l | _ => [] end in proceed (VTexts (l ++ words))
  | KSizes => let l := match old with Some (VNums l) => l | _ => [] end in
              let& ns := cast_all (cast_number 64) words in proceed (VNums (l ++ ns))
  | KSwitch =>
      let& _ := first old in
      let& s := match words with [] => proceed [] | _ => single words end in
      let& b := wanted (cast_switch s) in proceed (VSwitch b)
  | _ =>
      let& _ := first old in
      let& s := single words in
      match k with
      | KSize => let& n := wanted (cast_number 64 s) in proceed (VNum n)
      | KUint => let& n := wanted (cast_number 32 s) in proceed (VNum n)
      | KChar => let& n := wanted (lex_uchar s) in proceed (VNum n)
      | KPath => let& p := wanted (cast_path s) in proceed (VText p)
      | KEnc => let& e := cast_word enc_of_name s in proceed (VEnc e)
      | KNoenc => let& x := cast_word noenc_of_name s in proceed (VNoenc x)
      | KFormat => let& f := cast_word format_of_name s in proceed (VFormat f)
      | _ => proceed (VText s)
      end
  end.

(** ** Descriptions *)

(** [add_options()("long,s", ...)]. *)
Record desc := mkDesc { d_long : bytes; d_short : option N; d_kind : kind; d_default : option value; d_required : bool }.

(** [option_description::match]: a short name is told with its hyphen; the names of
    the repository do not end with a star. *)
Inductive matching := NoMatch | Approximate | Full.
Fixpoint begins_with (p l : bytes) : bool :=
  match p, l with
  | [], _ => true
  | a :: p, c :: l => (a =? c) && begins_with p l
  | _, [] => false
  end.
Definition match_desc (approx : bool) (name : bytes) (d : desc) : matching :=
  if bytes_eqb (d_long d) name then Full
  else if match d_short d with Some c => bytes_eqb [45; c] name | None => false end then Full
  else if approx && begins_with name (d_long d) then Approximate
  else NoMatch.
Definition is_full (m : matching) : bool := match m with Full => true | _ => false end.
Definition is_approximate (m : matching) : bool := match m with Approximate => true | _ => false end.

(** [options_description::find_nothrow]: [UsageError] is [ambiguous_option]. *)
Definition find_desc (approx : bool) (ds : list desc) (name : bytes) : handled (option desc) :=
  match filter (fun d => is_full (match_desc approx name d)) ds with
  | [d] => proceed (Some d)
  | _ :: _ :: _ => UsageError
  | [] => match filter (fun d => is_approximate (match_desc approx name d)) ds with
          | [] => proceed None
          | [d] => proceed (Some d)
          | _ => UsageError
          end
  end.

(** ** Storing *)

(** [po::variables_map], by name: the values, with whether it is the default; and the
    names whose values are final. *)
Record varmap := mkVm { m_vals : list (bytes * (value * bool)); m_final : list bytes }.
Definition nothing_stored : varmap := mkVm [] [].
Fixpoint get_var {A} (k : bytes) (l : list (bytes * A)) : option A :=
  match l with
  | [] => None
  | (x, a) :: r => if bytes_eqb x k then Some a else get_var k r
  end.
Fixpoint set_var {A} (k : bytes) (a : A) (l : list (bytes * A)) : list (bytes * A) :=
  match l with
  | [] => [(k, a)]
  | (x, b) :: r => if bytes_eqb x k then (k, a) :: r else (x, b) :: set_var k a r
  end.

(** An option as parsed: its full name, and the words that came with it. *)
Definition parsed := list (bytes * list bytes).

(** The first part of [store]; [new] are the names that will be final. *)
Fixpoint store_parsed (ds : list desc) (ps : parsed) (final : list bytes) (vals : list (bytes * (value * bool))) (new : list bytes)
  : handled (list (bytes * (value * bool)) * list bytes) :=
  match ps with
  | [] => proceed (vals, new)
  | (k, words) :: r =>
      if existsb (bytes_eqb k) final then store_parsed ds r final vals new
      else
        let& d := find_desc false ds k in
        let& d := wanted d in
        let old := match get_var k vals with Some (v, false) => Some v | _ => None end in
        let& v := parse_value (d_kind d) old words in
        store_parsed ds r final (set_var k (v, false) vals) (k :: new)
  end.
(** The second: the defaults. *)
Fixpoint store_defaults (ds : list desc) (vals : list (bytes * (value * bool))) : list (bytes * (value * bool)) :=
  match ds with
  | [] => vals
  | d :: r =>
      store_defaults r (match get_var (d_long d) vals, d_default d with
                        | None, Some v => set_var (d_long d) (v, true) vals
                        | _, _ => vals
                        end)
  end.
Definition store (ds : list desc) (ps : parsed) (m : varmap) : handled varmap :=
  let& (vals, new) := store_parsed ds ps (m_final m) (m_vals m) [] in
  proceed (mkVm (store_defaults ds vals) (new ++ m_final m)).

(** [parse_environment]: the variables there are, in their order, that the table has
    a name for. *)
Fixpoint parse_environment (names : list (bytes * bytes)) (vars : list (bytes * bytes)) : parsed :=
  match vars with
  | [] => []
  | (x, s) :: r => match get_var x names with
                   | Some k => (k, [s]) :: parse_environment names r
                   | None => parse_environment names r
                   end
  end.

(** [notify]: what is required and is not there. *)
Definition notify (ds : list desc) (m : varmap) : handled unit :=
  if forallb (fun d => negb (d_required d) || match get_var (d_long d) (m_vals m) with Some _ => true | None => false end) ds
  then proceed tt else UsageError.

(** [vm.count(k)] and [vm[k].as<T>()]. *)
Definition as_value (m : varmap) (k : string) : option value := match get_var (B k) (m_vals m) with Some (v, _) => Some v | None => None end.
Definition as_switch (m : varmap) (k : string) : bool := match as_value m k with Some (VSwitch b) => b | _ => false end.
Definition as_text (m : varmap) (k : string) : option bytes := match as_value m k with Some (VText s) => Some s | _ => None end.
Definition as_num (m : varmap) (k : string) : option N := match as_value m k with Some (VNum n) => Some n | _ => None end.
Definition as_texts (m : varmap) (k : string) : option (list bytes) := match as_value m k with Some (VTexts l) => Some l | _ => None end.
Definition as_nums (m : varmap) (k : string) : option (list N) := match as_value m k with Some (VNums l) => Some l | _ => None end.
Definition as_enc (m : varmap) (k : string) : option enc := match as_value m k with Some (VEnc e) => Some e | _ => None end.

(** ** The command line *)

(** An option as the parser knows it: its name (none for an argument), the words
    that came with it, and those of the command line that it was made of. *)
Record popt := mkPopt { q_key : bytes; q_words : list bytes; q_tokens : list bytes }.

(** The text up to the first equals sign, and what follows it. *)
Fixpoint at_equals (l : bytes) : bytes * option bytes :=
  match l with
  | [] => ([], None)
  | 61 :: r => ([], Some r)
  | c :: r => (c :: fst (at_equals r), snd (at_equals r))
  end.
(** [cmdline::parse_long_option]. *)
Definition parse_long (t : bytes) : handled (option popt) :=
  match t with
  | 45 :: 45 :: ((_ :: _) as r) =>
      match at_equals r with
      | (name, None) => proceed (Some (mkPopt name [] [t]))
      | (_, Some []) => UsageError
      | (name, Some v) => proceed (Some (mkPopt name [v] [t]))
      end
  | _ => proceed None
  end.
Definition is_switch (d : desc) : bool := match d_kind d with KSwitch => true | _ => false end.
(** [cmdline::parse_short_option]: switches can be grouped. *)
Fixpoint short_loop (ds : list desc) (t : bytes) (c : N) (adjacent : bytes) : handled (list popt) :=
  let& d := find_desc false ds [45; c] in
  match adjacent with
  | [] => proceed [mkPopt [45; c] [] [t]]
  | x :: r => if match d with Some d => is_switch d | None => false end
              then let& l := short_loop ds t x r in proceed (mkPopt [45; c] [] [] :: l)
              else proceed [mkPopt [45; c] [adjacent] [t]]
  end.
Definition parse_short (ds : list desc) (t : bytes) : handled (option (list popt)) :=
  match t with
  | 45 :: c :: r => if c =? 45 then proceed None else let& l := short_loop ds t c r in proceed (Some l)
  | _ => proceed None
  end.
(** A word that would be taken for an option in its own right. *)
Definition is_option (ds : list desc) (t : bytes) : handled bool :=
  let& l := parse_long t in
  let& s := match l with Some _ => proceed true
                       | None => let& s := parse_short ds t in proceed (match s with Some _ => true | None => false end) end in
  if s then let& d := find_desc true ds t in proceed (match d with Some _ => true | None => false end) else proceed false.
(** [cmdline::finish_option]: the option is looked up, names may be cut short; a value
    is taken from what follows. *)
Definition finish_option (ds : list desc) (o : popt) (args : list bytes) : handled (popt * list bytes) :=
  match q_key o with
  | [] => proceed (o, args)
  | _ =>
      let& d := find_desc true ds (q_key o) in
      let& d := wanted d in
      match is_switch d, q_words o, args with
      | true, [], _ => proceed (mkPopt (d_long d) [] (q_tokens o), args)
      | true, _, _ => UsageError
      | false, [], [] => UsageError
      | false, [], t :: r => let& b := is_option ds t in
                             if b then UsageError else proceed (mkPopt (d_long d) [t] (q_tokens o ++ [t]), r)
      | false, ws, _ => proceed (mkPopt (d_long d) ws (q_tokens o), args)
      end
  end.
Fixpoint finish_options (ds : list desc) (os : list popt) (args : list bytes) : handled (list popt * list bytes) :=
  match os with
  | [] => proceed ([], args)
  | [o] => let& (o, rest) := finish_option ds o args in proceed ([o], rest)
  | o :: r => let& (o, _) := finish_option ds o [] in let& (l, rest) := finish_options ds r args in proceed (o :: l, rest)
  end.
Definition argument (t : bytes) : popt := mkPopt [] [t] [t].
(** [cmdline::run], the loop. *)
Fixpoint parse_tokens (fuel : nat) (ds : list desc) (args : list bytes) : handled (list popt) :=
  match fuel with
  | O => match args with [] => proceed [] | _ => Handled NonTerm end
  | S fuel =>
      match args with
      | [] => proceed []
      | t :: r =>
          let& l := parse_long t in
          let& s := match l with Some o => proceed (Some [o]) | None => parse_short ds t end in
          match s with
          | Some os => let& (os, rest) := finish_options ds os r in
                       let& ps := parse_tokens fuel ds rest in proceed (os ++ ps)
          | None => if bytes_eqb t (B "--") then proceed (map argument r)
                    else let& ps := parse_tokens fuel ds r in proceed (argument t :: ps)
          end
      end
  end.
(** The end of [cmdline::run]: arguments get the name of the position, of which there
    may be only one. *)
Fixpoint name_arguments (name : bytes) (room : option nat) (ps : list popt) : handled (list popt) :=
  match ps with
  | [] => proceed []
  | o :: r =>
      match q_key o, room with
      | [], Some O => UsageError
      | [], Some (S n) => let& l := name_arguments name (Some n) r in proceed (mkPopt name (q_words o) (q_tokens o) :: l)
      | [], None => let& l := name_arguments name None r in proceed (mkPopt name (q_words o) (q_tokens o) :: l)
      | _, _ => let& l := name_arguments name room r in proceed (o :: l)
      end
  end.
Definition parse_line (ds : list desc) (name : bytes) (room : option nat) (tokens : list bytes) : handled (list popt) :=
  let& ps := parse_tokens (List.length tokens) ds tokens in name_arguments name room ps.

(** ** The sub-commands *)

Definition switch (long : string) (short : string) : desc := mkDesc (B long) (hd_error (B short)) KSwitch (Some (VSwitch false)) false.
Definition option_of (k : kind) (long short : string) : desc := mkDesc (B long) (hd_error (B short)) k None false.
Definition defaulting (k : kind) (v : value) (long short : string) : desc := mkDesc (B long) (hd_error (B short)) k (Some v) false.
Definition demanded (k : kind) (long short : string) : desc := mkDesc (B long) (hd_error (B short)) k None true.
(** The options all of these have: src/popm.cc:731-740, and so on. *)
Definition help_options : list desc := [switch "help" "h"; switch "info" ""; switch "man" ""].

(** src/popm.cc:742-777, 803-811. *)
Definition popm_opts_env : list desc :=
  [ switch "adjust-unsync" "u"; switch "always-create-v2" "a"; option_of KSize "count" "C"; switch "create-v2" "c";
    switch "create-frame" "f"; switch "create-backups" "b"; switch "dry-run" "n"; option_of KSize "increment" "i";
    option_of KText "owner" "o"; switch "playcount-only" "p"; switch "popularimeter-only" "m"; option_of KText "rating" "r";
    option_of KSizes "tag" "t"; switch "verbose" "v" ].
Definition popm_all : list desc := help_options ++ popm_opts_env ++ [demanded KTexts "arguments" ""].
Definition popm_env : list (bytes * bytes) :=
  [ (B "SCRIBBU_ADJUST_UNSYNC", B "adjust-unsync"); (B "SCRIBBU_CREATE", B "create"); (B "SCRIBBU_CREATE_BACKUPS", B "create-backups");
    (B "SCRIBBU_DRY_RUN", B "dry-run"); (B "SCRIBBU_OWNER", B "owner"); (B "SCRIBBU_VERBOSE", B "verbose") ].

(** src/xtag.cc:490-523, 548-557. *)
Definition xtag_opts_env : list desc :=
  [ switch "adjust-unsync" "u"; switch "always-create-v2" "A"; switch "create-frame" "f"; switch "create-v2" "c";
    switch "create-backups" "b"; switch "dry-run" "n"; switch "get" "g"; switch "merge" "m"; option_of KText "owner" "o";
    option_of KSizes "tag" "t"; option_of KText "xtags" "T" ].
Definition xtag_all : list desc := help_options ++ xtag_opts_env ++ [demanded KTexts "arguments" ""].
Definition xtag_env : list (bytes * bytes) :=
  [ (B "SCRIBBU_ADJUST_UNSYNC", B "adjust-unsync"); (B "SCRIBBU_ALWAYS_CREATE_V2", B "always-create-v2"); (B "SCRIBBU_CREATE", B "create");
    (B "SCRIBBU_CREATE_V2", B "create-v2"); (B "SCRIBBU_CREATE_BACKUPS", B "create-backups"); (B "SCRIBBU_DRY_RUN", B "dry-run");
    (B "SCRIBBU_OWNER", B "owner") ].

(** src/text.cc:365-403, 430-437. *)
Definition text_opts_env : list desc :=
  [ switch "adjust-unsync" "u"; option_of KText "album" "a"; switch "always-create-v2" "C"; option_of KText "artist" "A";
    switch "create-backups" "b"; switch "create-v2" "c"; option_of KTexts "delete" "d"; option_of KEnc "encoding" "E";
    option_of KText "encoded-by" "e"; option_of KText "genre" "g"; option_of KSizes "tag" "t"; option_of KText "title" "T";
    option_of KText "track" "k"; option_of KText "year" "y"; switch "verbose" "v" ].
Definition text_all : list desc := help_options ++ text_opts_env ++ [demanded KTexts "arguments" ""].
Definition text_env : list (bytes * bytes) :=
  [ (B "SCRIBBU_ADJUST_UNSYNC", B "adjust-unsync"); (B "SCRIBBU_ALWAYS_CREATE_V2", B "always-create-v2");
    (B "SCRIBBU_CREATE_BACKUPS", B "create-backups"); (B "SCRIBBU_CREATE_V2", B "create-v2"); (B "SCRIBBU_ENCODING", B "encoding") ].

(** src/genre.cc:814-857, 883-895. *)
Definition genre_opts_env : list desc :=
  [ switch "adjust-unsync" "u"; switch "always-create-v2" "a"; switch "always-create-v1" "A"; switch "create-backups" "b";
    switch "create-v2" "c"; switch "create-v1" "C"; switch "dry-run" "n"; option_of KText "genre" "g"; option_of KText "Genre" "G";
    switch "list-winamp-genres" "W"; switch "no-pager" "P"; option_of KSizes "tag" "t"; option_of KChar "v1" "v";
    switch "v1-only" "1"; switch "v2-only" "2"; switch "verbose" "v"; option_of KUint "winamp" "w" ].
Definition genre_all : list desc := help_options ++ genre_opts_env ++ [option_of KTexts "arguments" ""].
Definition genre_env : list (bytes * bytes) :=
  [ (B "SCRIBBU_ADJUST_UNSYNC", B "adjust-unsync"); (B "SCRIBBU_ALWAYS_CREATE_V2", B "always-create-v2");
    (B "SCRIBBU_ALWAYS_CREATE_V1", B "always-create-v1"); (B "SCRIBBU_CREATE_BACKUPS", B "create-backups");
    (B "SCRIBBU_CREATE_V1", B "create-v1"); (B "SCRIBBU_CREATE_V2", B "create-v2"); (B "SCRIBBU_DRY_RUN", B "dry-run");
    (B "SCRIBBU_V1_ONLY", B "v1-only"); (B "SCRIBBU_V2_ONLY", B "v2-only"); (B "SCRIBBU_VERBOSE", B "verbose") ].

(** src/rename.cc:205-224, 253-258. *)
Definition rename_opts_env : list desc :=
  [ switch "dry-run" "n"; option_of KPath "output" "o"; switch "rename" "r"; defaulting KText (VText (B "%A - %T.mp3")) "template" "t";
    switch "verbose" "v" ].
Definition rename_all : list desc := help_options ++ rename_opts_env ++ [demanded KTexts "arguments" ""].
Definition rename_env : list (bytes * bytes) :=
  [ (B "SCRIBBU_DRY_RUN", B "dry-run"); (B "SCRIBBU_OUTPUT", B "output"); (B "SCRIBBU_VERBOSE", B "verbose") ].

(** src/dump.cc:362-387, 413-417. *)
Definition dump_opts_env : list desc :=
  [ switch "id3v1-tags" "1"; switch "track-data" "D"; switch "id3v2-tags" "2"; defaulting KSize (VNum 0) "indent" "i";
    switch "no-expand-genre" "g"; option_of KText "expression" "e"; defaulting KFormat (VFormat FStandard) "format" "f";
    defaulting KSize (VNum 6) "num-comments" "m"; defaulting KEnc (VEnc E_CP1252) "v1-encoding" "c" ].
Definition dump_all : list desc := help_options ++ dump_opts_env ++ [demanded KTexts "arguments" ""].
Definition dump_env : list (bytes * bytes) := [ (B "SCRIBBU_NUM_COMMENTS", B "num-comments"); (B "SCRIBBU_V1_ENCODING", B "v1-encoding") ].

(** src/report.cc:508-531, src/m3u.cc:331-354 and src/split.cc:172-180; these do not look
    at the environment. *)
Definition report_all : list desc := help_options ++
  [ defaulting KSize (VNum 6) "num-comments" "c"; demanded KPath "output" "o"; switch "tsv" "t"; defaulting KEnc (VEnc E_CP1252) "v1-encoding" "1";
    switch "no-directory" "d"; switch "ascii-delimited" "a"; switch "no-summary" "S" ] ++ [demanded KTexts "arguments" ""].
Definition m3u_all : list desc := help_options ++
  [ switch "append" "a"; defaulting KNoenc (VNoenc NoFail) "on-encoding-failure" "e"; option_of KPath "output" "o";
    defaulting KEnc (VEnc E_CP1252) "source-encoding" "s"; switch "use-utf8" "8"; switch "verbose" "v" ] ++ [option_of KTexts "arguments" ""].
Definition split_all : list desc := help_options ++
  [ defaulting KText (VText []) "suffix" ""; demanded KText "argument" "" ].

(** ** From the command line and the environment to the handlers *)

(** A sub-command's tables: all options, those that the environment is looked up for,
    the variables, the name of the arguments and how many there may be. *)
Record tables := mkTables { t_all : list desc; t_opts : list desc; t_env : list (bytes * bytes); t_name : bytes; t_room : option nat }.
Definition popm_tables : tables := mkTables popm_all popm_opts_env popm_env (B "arguments") None.
Definition xtag_tables : tables := mkTables xtag_all xtag_opts_env xtag_env (B "arguments") None.
Definition text_tables : tables := mkTables text_all text_opts_env text_env (B "arguments") None.
Definition genre_tables : tables := mkTables genre_all genre_opts_env genre_env (B "arguments") None.
Definition rename_tables : tables := mkTables rename_all rename_opts_env rename_env (B "arguments") None.
Definition dump_tables : tables := mkTables dump_all dump_opts_env dump_env (B "arguments") None.
Definition report_tables : tables := mkTables report_all [] [] (B "arguments") None.
Definition m3u_tables : tables := mkTables m3u_all [] [] (B "arguments") None.
Definition split_tables : tables := mkTables split_all [] [] (B "argument") (Some 1%nat).

(** src/popm.cc:785-822, and so on: the command line is parsed and looked through for
    help (src/command-utilities.cc:66-95), then stored; then the environment, with only
    the options that are not hidden.  (Those that do not look at the environment have
    empty tables for it.)  [inl] is help. *)
Definition gather (T : tables) (tokens : list bytes) (vars : list (bytes * bytes)) : handled (help_level * option verbose_flavor + varmap) :=
  let& ps := parse_line (t_all T) (t_name T) (t_room T) tokens in
  match parsed_help (map q_tokens ps) HelpNone None with
  | (HelpNone, _) =>
      let& m := store (t_all T) (map (fun o => (q_key o, q_words o)) ps) nothing_stored in
      let& m := store (t_opts T) (parse_environment (t_env T) vars) m in
      let& _ := notify (t_all T) m in
      proceed (inr m)
  | h => proceed (inl h)
  end.

(** src/popm.cc:824-897: the values taken. *)
Definition popm_vars (m : varmap) : popm_vm :=
  mkPopmVm (as_switch m "adjust-unsync") (as_switch m "always-create-v2") (as_switch m "create-backups") (as_switch m "create-frame")
           (as_switch m "create-v2") (as_switch m "dry-run") (as_switch m "playcount-only") (as_switch m "popularimeter-only")
           (as_num m "increment") (as_num m "count") (as_text m "owner") (as_nums m "tag") (as_text m "rating") (given (as_texts m "arguments")).
(** src/xtag.cc:568-603. *)
Definition xtag_vars (m : varmap) : xtag_vm :=
  mkXtagVm (as_switch m "adjust-unsync") (as_switch m "always-create-v2") (as_switch m "create-frame") (as_switch m "create-backups")
           (as_switch m "create-v2") (as_switch m "dry-run") (as_switch m "get") (as_switch m "merge") (as_text m "owner") (as_nums m "tag")
           (as_text m "xtags") (given (as_texts m "arguments")).
(** src/text.cc:445-499. *)
Definition text_vars (m : varmap) : text_vm :=
  mkTextVm (as_switch m "adjust-unsync") (as_switch m "always-create-v2") (as_switch m "create-v2") (as_switch m "create-backups")
           (as_enc m "encoding") (as_text m "album") (as_text m "artist") (as_text m "encoded-by") (as_text m "genre") (as_text m "title")
           (as_text m "track") (as_text m "year") (as_texts m "delete") (as_nums m "tag") (given (as_texts m "arguments")).
(** src/genre.cc:908-966. *)
Definition genre_vars (m : varmap) : genre_vm :=
  mkGenreVm (as_switch m "adjust-unsync") (as_switch m "always-create-v2") (as_switch m "always-create-v1") (as_switch m "create-backups")
            (as_switch m "create-v2") (as_switch m "create-v1") (as_switch m "dry-run") (as_switch m "list-winamp-genres")
            (as_switch m "v1-only") (as_switch m "v2-only") (as_num m "winamp") (as_text m "genre") (as_text m "Genre") (as_num m "v1")
            (as_nums m "tag") (given (as_texts m "arguments")).

(** The commands, with the exit status that showing help leads to. *)
Definition after_options (T : tables) (helped : help_level * option verbose_flavor -> N) (go : varmap -> FS N)
  (tokens : list bytes) (vars : list (bytes * bytes)) : FS N := fun fs =>
  match gather T tokens vars with
  | UsageError => conclude_run UsageError fs
  | Handled (Ok (inl h)) => fret (helped h) fs
  | Handled (Ok (inr m)) => go m fs
  | Handled (Throw e) => conclude_run (Handled (Throw e)) fs
  | Handled (UB u) => conclude_run (Handled (UB u)) fs
  | Handled NonTerm => conclude_run (Handled NonTerm) fs
  end.
Section Commands.
  Context (z : zlib) (passes : nat) (e : env) (entries : bytes -> list bytes) (w : world) (helped : help_level * option verbose_flavor -> N).
  Definition popm_command : list bytes -> list (bytes * bytes) -> FS N :=
    after_options popm_tables helped (fun m => run_popm z passes e entries w (popm_vars m)).
  Definition xtag_command : list bytes -> list (bytes * bytes) -> FS N :=
    after_options xtag_tables helped (fun m => run_xtag z passes e entries w (xtag_vars m)).
  Definition text_command (loc : outcome enc) : list bytes -> list (bytes * bytes) -> FS N :=
    after_options text_tables helped (fun m => run_text z passes e entries w loc (text_vars m)).
  Definition genre_command : list bytes -> list (bytes * bytes) -> FS N :=
    after_options genre_tables helped (fun m => run_genre z passes e entries w (genre_vars m)).
End Commands.
