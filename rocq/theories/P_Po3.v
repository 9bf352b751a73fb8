(** * C95, further: words that are no value. *)
From Verif Require Import Base S_Ints M_Ints M_Stream M_Id3v1 M_Payload M_Frame M_Tag22 M_Tag23 M_Tag24 M_Charset M_Encodings M_TextId M_Lookup M_Read M_Fs M_Split
  M_Tagset M_Process M_Dirent M_Popm M_Cmds M_Xtag M_Options S_Options L_Options M_Main S_Main L_Main S_Popm S_Tag23 M_Po S_Po L_Po L_Po2 L_Po3 P_Po.
#[local] Open Scope N_scope.

Lemma word_used s : snd (word s) = [] -> fst (word s) = s /\ no_blank s.
Proof.
  unfold no_blank. induction s as [|c s IH]; [now split|]. cbn [word]. destruct (blank c) eqn:E; [discriminate|]. cbn [fst snd].
  intros H. destruct (IH H) as (-> & F). split; [reflexivity|]. constructor; [|exact F].
  unfold blank in E. apply orb_false_iff in E as [E1 E2]. apply N.eqb_neq in E2. split; [|exact E2]. intros [A C].
  apply N.leb_le in A. apply N.leb_le in C. rewrite A, C in E1. discriminate E1.
Qed.
Lemma cast_word_ok {A} (f : bytes -> outcome A) s a : cast_word f s = proceed a -> f s = Ok a /\ no_blank s.
Proof.
  unfold cast_word. destruct (f (fst (word s))) as [x| | |] eqn:E; try discriminate. destruct (snd (word s)) eqn:W; [|discriminate].
  intros H. apply proceed_inj in H. subst x. destruct (word_used s W) as (<- & F). rewrite (proj1 (word_used s W)) in *. now split.
Qed.
Lemma bad_fold k s r : (forall old v, parse_value k old [s] <> proceed v) -> forall pre o old, fold_parse k old (pre ++ [s] :: r) <> proceed o.
Proof.
  intros H. induction pre as [|ws pre IH]; intros o old E; cbn [List.app fold_parse] in E; apply hbind_inv in E; destruct E as (v & Pv & E).
  - exact (H old v Pv).
  - exact (IH _ _ E).
Qed.
Lemma word_read k old s v : In k [KEnc; KNoenc; KFormat] -> parse_value k old [s] = proceed v -> reads k [[s]] v.
Proof.
  intros [<-|[<-|[<-|[]]]] H; cbn [parse_value] in H; apply hbind_inv in H; destruct H as (u & _ & H); cbn [single] in H; rewrite hbind_ok in H;
    apply hbind_inv in H; destruct H as (a & C & H); apply proceed_inj in H; subst v; apply cast_word_ok in C; destruct C as (C & F).
  - now apply reads_enc.
  - apply reads_noenc. unfold noenc_of_name in C. destruct (bytes_eqb_spec s (B "fail")) as [->|]; [injection C as <-; cbn; tauto|].
    destruct (bytes_eqb_spec s (B "ignore")) as [->|]; [injection C as <-; cbn; tauto|].
    destruct (bytes_eqb_spec s (B "transliterate")) as [->|]; [injection C as <-; cbn; tauto|discriminate C].
  - apply reads_format. unfold format_of_name in C.
    destruct (existsb (bytes_eqb s) [B "1"; B "csv"]) eqn:E1.
    { apply existsb_exists in E1. destruct E1 as (x & I & E). apply bytes_eqb_eq in E. subst x. injection C as <-. destruct I as [<-|[<-|[]]]; cbn; tauto. }
    destruct (existsb (bytes_eqb s) [B "2"; B "standard"; B "std"]) eqn:E2.
    { apply existsb_exists in E2. destruct E2 as (x & I & E). apply bytes_eqb_eq in E. subst x. injection C as <-. destruct I as [<-|[<-|[<-|[]]]]; cbn; tauto. }
    destruct (existsb (bytes_eqb s) [B "3"; B "json"]) eqn:E3; [|discriminate C].
    apply existsb_exists in E3. destruct E3 as (x & I & E). apply bytes_eqb_eq in E. subst x. injection C as <-. destruct I as [<-|[<-|[]]]; cbn; tauto.
Qed.

(** An encoding, a way to deal with characters, or a format that is not one of those
    there are, or has something after it, is not taken: the command does not go on. *)
Theorem C95_words : forall T tokens cl vars d s, In T commands -> line T tokens cl -> enough_room T cl -> In d (t_all T) ->
  In (d_kind d) [KEnc; KNoenc; KFormat] -> In (d_long d, [s]) cl -> (forall v, ~ reads (d_kind d) [[s]] v) ->
  forall m, gather T tokens vars <> Handled (Ok (inr m)).
Proof.
  intros T tokens cl vars d s I L R Id K J NR. pose proof (commands_fit T I) as Ft. apply (bad_value T tokens cl vars d Ft L R Id). intros o.
  assert (X : exists pre r, on_line cl d = pre ++ [s] :: r).
  { clear -J. induction cl as [|(k, ws) cl IH]; [destruct J|]. rewrite on_line_cons. destruct J as [J|J].
    - injection J as -> ->. rewrite bytes_refl. exists [], (on_line cl d). reflexivity.
    - destruct (IH J) as (pre & r & E). rewrite E. destruct (bytes_eqb k (d_long d)); [exists (ws :: pre), r|exists pre, r]; reflexivity. }
  destruct X as (pre & r & ->). apply bad_fold. intros old v P. exact (NR v (word_read _ old s v K P)).
Qed.
Print Assumptions C95_words.
Example C95_words_nontrivial :
  refused (gather text_tables [B "--encoding=UTF-8 x"; B "f"] []) /\ ends_well (gather text_tables [B "--encoding=UTF-8"; B "f"] []) /\
  (forall v, ~ reads KEnc [[B "UTF-8 x"]] v) /\ (forall m, gather dump_tables [B "-fxml"; B "f"] [] <> Handled (Ok (inr m))).
Proof.
  split; [vm_compute; reflexivity|]. split; [eexists; vm_compute; reflexivity|]. split; [|vm_compute; discriminate].
  intros v H. inversion H as [| | | | | | | | | | |s e E F| |]; subst. inversion_clear F as [|c l H0 F1]. repeat (inversion_clear F1 as [|c' l' H1 F2]; rename F2 into F1; try (now destruct H1)).
Qed.

(** A path in quotes is the path between them, whatever is in it (an instance of
    [C95_values]). *)
Example C95_quoted_nontrivial :
  reads KPath [[in_quotes (B "a ""b"" \c.csv")]] (VText (B "a ""b"" \c.csv")) /\
  exists m, gather report_tables [B "-o"; in_quotes (B "a ""b"" \c.csv"); B "f"] [] = Handled (Ok (inr m)) /\
    value_of m (B "output") = Some (VText (B "a ""b"" \c.csv")).
Proof. split; [apply reads_quoted|]. eexists. split; vm_compute; reflexivity. Qed.
