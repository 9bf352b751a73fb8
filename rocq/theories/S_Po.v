(** * Specification: how command lines are written, and what options are to be worth. *)
From Verif Require Import Base M_Charset M_Encodings M_Options M_Main S_Main S_Popm M_Po.
#[local] Open Scope N_scope.

(** The sub-commands with options. *)
Definition commands : list tables :=
  [popm_tables; xtag_tables; text_tables; genre_tables; rename_tables; dump_tables; report_tables; m3u_tables; split_tables].

(** ** Writing a command line *)

(** [p] stands for the option: its name, or what begins no other name. *)
Definition stands_for (ds : list desc) (p : bytes) (d : desc) : Prop :=
  In d ds /\ p <> [] /\
  (p = d_long d \/ (exists r, d_long d = p ++ r) /\ forall d', In d' ds -> (exists r, d_long d' = p ++ r) -> d' = d).
(** The letter is that of the option, and of no other. *)
Definition letter (ds : list desc) (c : N) (d : desc) : Prop :=
  In d ds /\ d_short d = Some c /\ forall d', In d' ds -> d_short d' = Some c -> d' = d.
Definition takes_nothing (d : desc) : Prop := d_kind d = KSwitch.
(** What does not look like an option. *)
Definition no_option (s : bytes) : Prop := hd 0 s <> 45 \/ s = [45].

(** Words of the command line, and what they mean: the names of options with the
    values given. *)
Inductive spelt (T : tables) : list bytes -> parsed -> Prop :=
| long_switch p d : stands_for (t_all T) p d -> takes_nothing d -> spelt T [B "--" ++ p] [(d_long d, [])]
| short_switches cs l : cs <> [] -> Forall2 (letter (t_all T)) cs l -> Forall takes_nothing l ->
    spelt T [45 :: cs] (map (fun d => (d_long d, [])) l)
| long_equals p d v : stands_for (t_all T) p d -> ~ takes_nothing d -> v <> [] -> spelt T [B "--" ++ p ++ B "=" ++ v] [(d_long d, [v])]
| long_next p d v : stands_for (t_all T) p d -> ~ takes_nothing d -> no_option v -> spelt T [B "--" ++ p; v] [(d_long d, [v])]
| short_joined c d v : letter (t_all T) c d -> ~ takes_nothing d -> v <> [] -> spelt T [[45; c] ++ v] [(d_long d, [v])]
| short_next c d v : letter (t_all T) c d -> ~ takes_nothing d -> no_option v -> spelt T [[45; c]; v] [(d_long d, [v])]
| an_argument s : no_option s -> spelt T [s] [(t_name T, [s])].
Inductive line (T : tables) : list bytes -> parsed -> Prop :=
| line_end : line T [] []
| line_dashes l : line T (B "--" :: l) (map (fun s => (t_name T, [s])) l)
| line_more ts ps us qs : spelt T ts ps -> line T us qs -> line T (ts ++ us) (ps ++ qs).
(** How many arguments there are. *)
Definition arguments (T : tables) (ps : parsed) : nat := List.length (filter (fun p => bytes_eqb (fst p) (t_name T)) ps).
Definition enough_room (T : tables) (ps : parsed) : Prop := match t_room T with None => True | Some n => (arguments T ps <= n)%nat end.

(** ** What options are worth *)

(** Words for yes and no. *)
Definition yes_words : list bytes := [[]; B "on"; B "yes"; B "1"; B "true"].
Definition no_words : list bytes := [B "off"; B "no"; B "0"; B "false"].
Definition same_letter (a c : N) : Prop := a = c \/ (65 <= a <= 90 /\ c = a + 32).
Definition in_any_case (l : list bytes) (s : bytes) : Prop := exists t, In t l /\ Forall2 same_letter s t.
Definition no_blank (s : bytes) : Prop := Forall (fun c => ~ (9 <= c <= 13) /\ c <> 32) s.

(** A text in quotes: quotes and backslashes in it come after a backslash. *)
Definition in_quotes (s : bytes) : bytes := [34] ++ flat_map (fun c => if (c =? 34) || (c =? 92) then [92; c] else [c]) s ++ [34].

(** The value of an option by the words given with it each time. *)
Inductive reads : kind -> list (list bytes) -> value -> Prop :=
| reads_on : reads KSwitch [[]] (VSwitch true)
| reads_yes s : in_any_case yes_words s -> reads KSwitch [[s]] (VSwitch true)
| reads_no s : in_any_case no_words s -> reads KSwitch [[s]] (VSwitch false)
| reads_text s : reads KText [[s]] (VText s)
| reads_size s n : numeral s n -> n < 2 ^ 64 -> reads KSize [[s]] (VNum n)
| reads_uint s n : numeral s n -> n < 2 ^ 32 -> reads KUint [[s]] (VNum n)
| reads_char c : reads KChar [[[c]]] (VNum c)
| reads_texts ls : reads KTexts ls (VTexts (concat ls))
| reads_sizes ls ns : Forall2 (fun s n => numeral s n /\ n < 2 ^ 64) (concat ls) ns -> reads KSizes ls (VNums ns)
| reads_path s : s <> [] -> no_blank s -> hd 0 s <> 34 -> reads KPath [[s]] (VText s)
| reads_quoted s : reads KPath [[in_quotes s]] (VText s)
| reads_enc s e : enc_of_name s = Ok e -> no_blank s -> reads KEnc [[s]] (VEnc e)
| reads_noenc s x : In (s, x) [(B "fail", NoFail); (B "ignore", NoIgnore); (B "transliterate", NoTranslit)] -> reads KNoenc [[s]] (VNoenc x)
| reads_format s f : In (s, f) [(B "1", FCsv); (B "csv", FCsv); (B "2", FStandard); (B "standard", FStandard); (B "std", FStandard);
                                (B "3", FJson); (B "json", FJson)] -> reads KFormat [[s]] (VFormat f).

(** The words given with it on the command line, and in the environment. *)
Definition on_line (cl : parsed) (d : desc) : list (list bytes) := map snd (filter (fun p => bytes_eqb (fst p) (d_long d)) cl).
Definition in_env (T : tables) (vars : list (bytes * bytes)) (d : desc) : list (list bytes) :=
  map (fun p => [snd p]) (filter (fun p => existsb (fun q => bytes_eqb (fst q) (fst p) && bytes_eqb (snd q) (d_long d)) (t_env T)) vars).

(** The command line comes first, then the environment, then the default. *)
Inductive worth (T : tables) (cl : parsed) (vars : list (bytes * bytes)) (d : desc) : option value -> Prop :=
| by_line v : on_line cl d <> [] -> reads (d_kind d) (on_line cl d) v -> worth T cl vars d (Some v)
| by_env v : on_line cl d = [] -> in_env T vars d <> [] -> reads (d_kind d) (in_env T vars d) v -> worth T cl vars d (Some v)
| by_default v : on_line cl d = [] -> in_env T vars d = [] -> d_default d = Some v -> worth T cl vars d (Some v)
| by_none : on_line cl d = [] -> in_env T vars d = [] -> d_default d = None -> d_required d = false -> worth T cl vars d None.

(** The variables stand for options there are. *)
Definition known_vars (T : tables) (vars : list (bytes * bytes)) : Prop :=
  forall x s k, In (x, s) vars -> In (x, k) (t_env T) -> exists d, In d (t_opts T) /\ d_long d = k.
Definition no_help (tokens : list bytes) : Prop := forall t, In t tokens -> ~ In t help_words.

(** What an option is worth in the end. *)
Definition value_of (m : varmap) (k : bytes) : option value := match get_var k (m_vals m) with Some (v, _) => Some v | None => None end.
(** There are options, or the user is told how to use the command. *)
Definition ends_well {A} (x : handled A) : Prop := exists a, x = Handled (Ok a).
Definition refused {A} (x : handled A) : Prop := x = UsageError.
(** The command line, or the environment, has it that nothing be changed. *)
Definition dry_asked (T : tables) (tokens : list bytes) (vars : list (bytes * bytes)) : Prop :=
  (exists cl, line T tokens cl /\ enough_room T cl /\ In (B "dry-run", []) cl) \/
  (NoDup (map fst vars) /\ exists s, In (B "SCRIBBU_DRY_RUN", s) vars /\ in_any_case yes_words s).
(** Something other than the end of the options. *)
Definition words_before (l : list bytes) : Prop := Forall (fun s => hd 0 s <> 45) l.
