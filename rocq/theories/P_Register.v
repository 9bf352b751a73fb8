(** * C107: parsers that an application registers for frames. *)
From Verif Require Import Base M_Ints M_Unsync M_Stream M_Payload M_Cloud M_Frame M_Tag23 M_Tag22 M_Register
  S_Register L_Unsync L_Tag23 L_Tag23e L_Tag22 L_Register.
#[local] Open Scope N_scope.

(** Whatever the threads of a program have registered, read and copied, and in
    whatever order, the frames of an ID3v2.2 tag read from [buf] are made, each in its
    place, by the parsers chosen for their identifiers: from the generic parsers
    offered before the construction began and the text parsers offered before its
    second step.  Nothing done later changes them. *)
Theorem C107_read : forall A (h1 h2 h3 : list (act A)) t flags buf ms pad,
  Forall (not_constructing t) h2 -> Forall (not_assigning t) h3 ->
  laid_and_made (generics h1) (texts (h1 ++ h2)) (if N.testbit flags 7 then resync_rest buf else [])
    ms pad (if N.testbit flags 7 then resynchronise buf else buf) ->
  holds (after start (h1 ++ Begin t :: h2 ++ Finish t flags buf :: h3)) t = Some (ms, pad).
Proof.
  intros A h1 h2 h3 t flags buf ms pad H2 H3 HL. rewrite constructed by assumption.
  set (G := w_generic (after start h1)). set (T := w_text (after start (h1 ++ Begin t :: h2))).
  assert (HG : forall x, lookup G x = lookup (generic_defaults V22 ++ accepted (generics h1)) x).
  { intros x. unfold G. apply (after_generic h1 start x). }
  assert (HT : forall x, lookup T x = lookup (text_defaults V22 ++ texts (h1 ++ h2)) x).
  { intros x. unfold T. etransitivity; [apply (after_text (h1 ++ Begin t :: h2) start x)|].
    rewrite !texts_app. reflexivity. }
  assert (E : parse_with G T flags buf = Ok (ms, pad)); [|now rewrite E].
  unfold parse_with. change 128 with (2 ^ 7). rewrite !testbit_land. cbv zeta.
  eapply read_laid; [exact HG|exact HT|exact HL| |lia].
  apply laid_length in HL. lia.
Qed.

(** There is always one parser chosen, and only one. *)
Theorem C107_one : forall A (gs ts : list (bytes * parser A)) id,
  (exists f, chosen gs ts id f) /\ forall f g, chosen gs ts id f -> chosen gs ts id g -> f = g.
Proof.
  intros A gs ts id.
  set (G := generic_defaults V22 ++ accepted gs). set (T := text_defaults V22 ++ ts). split.
  - destruct (mem_id id text_ids22) eqn:M; [eexists; apply ch_fixed; apply kind_text in M; now do 3 right|].
    destruct (bytes_eqb_spec id (B "COM")) as [E1|E1]; [eexists; apply ch_fixed; now left|].
    destruct (bytes_eqb_spec id (B "CNT")) as [E2|E2]; [eexists; apply ch_fixed; right; now left|].
    destruct (bytes_eqb_spec id (B "POP")) as [E3|E3]; [eexists; apply ch_fixed; right; right; now left|].
    assert (NF : ~ fixed id).
    { intros [F|[F|[F|F]]]; [congruence..|]. apply kind_text in F. congruence. }
    destruct (lookup ts id) as [f|] eqn:LT; [exists f; apply ch_text; [exact NF|now apply lookup_first]|].
    apply lookup_none in LT.
    assert (DK : known id \/ ~ known id).
    { unfold known. destruct (bytes_eqb_spec id (B "UFI")); [tauto|]. destruct (bytes_eqb_spec id (B "TXX")); [tauto|].
      destruct (bytes_eqb_spec id (B "XTG")); tauto. }
    destruct DK as [K|K]; [eexists; apply ch_known; assumption|].
    destruct (reserved V22 id) eqn:R; [eexists; apply ch_unknown; try assumption; left; now apply reserved_refused|].
    assert (NR : ~ refused id) by (intros X; apply reserved_refused in X; congruence).
    destruct (lookup gs id) as [f|] eqn:LG.
    + exists f. apply ch_generic; try assumption. now apply lookup_first.
    + eexists. apply ch_unknown; try assumption. right. now apply lookup_none.
  - intros f g Cf Cg.
    rewrite <- (dispatch_chosen G T gs ts id f (fun _ => eq_refl) (fun _ => eq_refl) Cf).
    exact (dispatch_chosen G T gs ts id g (fun _ => eq_refl) (fun _ => eq_refl) Cg).
Qed.

(** What the registering calls answer: a generic parser is refused for [COM], [PCT]
    and [POP]; otherwise [true] if the identifier had no parser of that sort, be it the
    library's, and [false] if it had. *)
Theorem C107_answer : forall A (h : list (act A)) id f,
  (fst (step (after start h) (RegGeneric id f)) = Refused /\ refused id \/
   fst (step (after start h) (RegGeneric id f)) = Added /\ ~ refused id /\
     none_for (generics h) id /\ ~ known id /\ id <> B "CNT" \/
   fst (step (after start h) (RegGeneric id f)) = Present /\ ~ refused id /\
     ~ (none_for (generics h) id /\ ~ known id /\ id <> B "CNT")) /\
  (fst (step (after start h) (RegText id f)) = Added /\ none_for (texts h) id /\ ~ In id text_ids22 \/
   fst (step (after start h) (RegText id f)) = Present /\ ~ (none_for (texts h) id /\ ~ In id text_ids22)).
Proof.
  intros A h id f. split.
  - cbn [step]. destruct (reserved V22 id) eqn:R; [left; split; [reflexivity|now apply reserved_refused]|].
    assert (NR : ~ refused id) by (intros X; apply reserved_refused in X; congruence). right.
    pose proof (insert_said (w_generic (after start h)) id f) as HS.
    pose proof (after_generic h start id) as HL. cbn [start w_generic] in HL.
    rewrite lookup_app, lookup_accepted, R in HL.
    destruct (insert (w_generic (after start h)) id f) as [g c]. cbn [snd fst] in *. subst c. rewrite HL.
    assert (HD : lookup (@generic_defaults A V22) id = None <-> ~ known id /\ id <> B "CNT").
    { rewrite lookup_none. unfold none_for, known. cbn [generic_defaults map fst In].
      unfold refused in NR. split; [intros H; repeat split; [intros [K|[K|K]]; subst; apply H; tauto|intros ->; apply H; tauto]|].
      intros [K1 K2] [K|[K|[K|[K|[K|[]]]]]]; subst; tauto. }
    destruct (lookup (generic_defaults V22) id) as [g'|].
    { right. split; [reflexivity|]. split; [exact NR|]. intros (_ & K). apply HD in K. discriminate K. }
    destruct (lookup (generics h) id) as [g'|] eqn:LG.
    { right. split; [reflexivity|]. split; [exact NR|]. intros (K & _). apply lookup_none in K. congruence. }
    left. split; [reflexivity|]. split; [exact NR|]. split; [now apply lookup_none|now apply HD].
  - cbn [step].
    pose proof (insert_said (w_text (after start h)) id f) as HS.
    pose proof (after_text h start id) as HL. cbn [start w_text] in HL.
    rewrite lookup_app, default_text_iff in HL.
    destruct (insert (w_text (after start h)) id f) as [g c]. cbn [snd fst] in *. subst c. rewrite HL.
    destruct (mem_id id text_ids22) eqn:M.
    { right. split; [reflexivity|]. intros (_ & K). apply kind_text in M. contradiction. }
    assert (NI : ~ In id text_ids22) by (intros X; apply kind_text in X; congruence).
    destruct (lookup (texts h) id) as [g'|] eqn:LT.
    + right. split; [reflexivity|]. intros (K & _). apply lookup_none in K. congruence.
    + left. split; [reflexivity|]. split; [now apply lookup_none|exact NI].
Qed.

(** Tags without frames of an identifier are read the same whether or not a parser is
    registered for it. *)
Theorem C107_elsewhere : forall A (h : list (act A)) id f a t flags buf ms pad,
  a = RegGeneric id f \/ a = RegText id f -> holds (after start h) t = None ->
  holds (after start (h ++ [Begin t; Finish t flags buf])) t = Some (ms, pad) -> ~ In id (map fst ms) ->
  holds (after start (h ++ [a; Begin t; Finish t flags buf])) t = Some (ms, pad).
Proof.
  intros A h id f a t flags buf ms pad Ha H0 H NI.
  change (h ++ [Begin t; Finish t flags buf]) with (h ++ Begin t :: [] ++ Finish t flags buf :: []) in H.
  replace (h ++ [a; Begin t; Finish t flags buf]) with ((h ++ [a]) ++ Begin t :: [] ++ Finish t flags buf :: [])
    by (now rewrite <- app_assoc).
  rewrite constructed in * by constructor.
  assert (HB : forall h' : list (act A), w_text (after start (h' ++ [Begin t])) = w_text (after start h') /\
    holds (after start (h' ++ [Begin t])) t = holds (after start h') t).
  { intros h'. rewrite after_app. split; reflexivity. }
  destruct (HB h) as [ET EH]. rewrite ET, EH, H0 in H. destruct (HB (h ++ [a])) as [ET' _]. rewrite ET'.
  destruct (parse_with (w_generic (after start h)) (w_text (after start h)) flags buf) as [r|e|ub|] eqn:E; try discriminate H.
  injection H as ->.
  assert (D : forall x, x <> id -> dispatch V22 (w_generic (after start (h ++ [a]))) (w_text (after start (h ++ [a]))) x =
    dispatch V22 (w_generic (after start h)) (w_text (after start h)) x).
  { intros x X. rewrite after_app. cbn [after].
    assert (L1 : lookup (w_generic (snd (step (after start h) a))) x = lookup (w_generic (after start h)) x).
    { rewrite step_generic, lookup_app, lookup_accepted. destruct (lookup (w_generic (after start h)) x); [reflexivity|].
      destruct Ha as [-> | ->]; cbn [generics flat_map app lookup];
        [destruct (bytes_eqb_spec id x); [congruence|]|]; now destruct (reserved V22 x). }
    assert (L2 : lookup (w_text (snd (step (after start h) a))) x = lookup (w_text (after start h)) x).
    { rewrite step_text, lookup_app. destruct (lookup (w_text (after start h)) x); [reflexivity|].
      destruct Ha as [-> | ->]; cbn [texts flat_map app lookup]; [reflexivity|].
      destruct (bytes_eqb_spec id x); [congruence|reflexivity]. }
    unfold dispatch, registered. now rewrite L1, L2. }
  assert (E' : parse_with (w_generic (after start (h ++ [a]))) (w_text (after start (h ++ [a]))) flags buf = Ok (ms, pad)).
  { unfold parse_with in *. cbv zeta in *.
    eapply (frames_with_other _ _ _ _ id D); [exact E|exact NI]. }
  now rewrite E'.
Qed.

(** If the application registers nothing for all tags, the frames are those of M_Tag22,
    and for ID3v2.3 and ID3v2.4, for which it cannot, the parser is the one of M_Frame. *)
Theorem C107_default : forall A,
  (forall v id, dispatch v (generic_defaults v) (text_defaults v) id = @built_in A v (kind_of v id)) /\
  forall (h1 h2 h3 : list (act A)) t flags buf tg, Forall not_default (h1 ++ h2) ->
    Forall (not_constructing t) h2 -> Forall (not_assigning t) h3 ->
    parse_body22 flags buf = Ok tg ->
    holds (after start (h1 ++ Begin t :: h2 ++ Finish t flags buf :: h3)) t =
      Some (map (fun c => (f_id (c_frame c), Own (f_body (c_frame c)))) (t2_frames tg), t2_pad tg).
Proof.
  intros A. split; [exact dispatch_default|]. intros h1 h2 h3 t flags buf tg ND H2 H3 HP.
  rewrite constructed by assumption.
  assert (NG : forall h : list (act A), Forall not_default h -> generics h = [] /\ texts h = []).
  { intros h H. induction H as [|a r Ha _ IH]; [split; reflexivity|].
    destruct a; try contradiction; exact IH. }
  apply Forall_app in ND as [ND1 ND2].
  destruct (NG h1 ND1) as [G1 T1], (NG h2 ND2) as [_ T2].
  set (G := w_generic (after start h1)). set (T := w_text (after start (h1 ++ Begin t :: h2))).
  assert (D : forall x, dispatch V22 G T x = built_in V22 (kind_of V22 x)).
  { intros x. rewrite <- (dispatch_default V22 x).
    assert (EG : lookup G x = lookup (generic_defaults V22) x).
    { unfold G. rewrite after_generic, G1. cbn [accepted filter start w_generic]. now rewrite app_nil_r. }
    assert (ET : lookup T x = lookup (text_defaults V22) x).
    { unfold T. rewrite after_text, texts_app, T1.
      change (texts (Begin t :: h2)) with (texts h2). rewrite T2. cbn [app start w_text]. now rewrite app_nil_r. }
    unfold dispatch, registered. now rewrite EG, ET. }
  unfold parse_with. cbv zeta. rewrite (frames_with_default G T D).
  unfold parse_body22 in HP. cbv zeta in HP.
  apply bind_ok in HP as ([fs pad] & E & HP). apply Ok_inj in HP. subst tg. rewrite E. cbn [bind t2_frames t2_pad].
  rewrite !map_map. reflexivity.
Qed.

(** ** What does not hold *)

(** id3v22.hh:588, 593: "false => another was replaced".  It never is: the new parser
    is dropped. *)
Theorem C107_replaced_refuted : forall A (w : world A) id f,
  (fst (step w (RegGeneric id f)) = Present -> snd (step w (RegGeneric id f)) = w) /\
  (fst (step w (RegText id f)) = Present -> snd (step w (RegText id f)) = w).
Proof.
  intros A [g x b ts] id f. cbn [step w_generic w_text w_begun w_tags]. split.
  - destruct (reserved V22 id); [discriminate|]. unfold insert. destruct (lookup g id); [reflexivity|discriminate].
  - unfold insert. destruct (lookup x id); [reflexivity|discriminate].
Qed.

(** A parser that is accepted need not be used: text parsers for comments, play counts
    and popularimeters never are, nor those registered with a tag, which has read its
    frames by then. *)
Theorem C107_accepted_refuted : forall A (h h' : list (act A)) id f t,
  id = B "COM" \/ id = B "CNT" \/ id = B "POP" ->
  (none_for (texts h) id -> fst (step (after start h) (RegText id f)) = Added) /\
  holds (after start (h ++ RegText id f :: h')) t = holds (after start (h ++ h')) t.
Proof.
  intros A h h' id f t Hid. split.
  - intros HN. destruct (C107_answer A h id f) as [_ [(E & _)|(_ & K)]]; [exact E|]. elim K. split; [exact HN|].
    intros X. apply kind_text in X. destruct Hid as [->|[->| ->]]; discriminate X.
  - rewrite !after_app. cbn [after].
    apply (sim_after id h' Hid). apply sim_text. apply sim_refl.
Qed.
Theorem C107_tag_refuted : forall A (h : list (act A)) t,
  holds (after start h) t = holds (after start (filter not_with_tag h)) t.
Proof. intros A h t. apply (sim_filter h start start). apply sim_refl. Qed.

(** [PCT] is refused, although no parser has it: the play counts of ID3v2.2 are [CNT]. *)
Theorem C107_reserved_refuted : forall A (h : list (act A)) f,
  fst (step (after start h) (RegGeneric (B "PCT") f)) = Refused /\
  forall gs ts : list (bytes * parser A), none_for ts (B "PCT") -> chosen gs ts (B "PCT") (built_in V22 KUnknown).
Proof.
  intros A h f. split; [reflexivity|]. intros gs ts H. apply ch_unknown; [|exact H| |left; right; now left].
  - intros [K|[K|[K|K]]]; [discriminate K..|]. apply kind_text in K. discriminate K.
  - intros [K|[K|K]]; discriminate K.
Qed.

(** ** Examples *)

(** An application keeps play counts in frames [XPC], one byte each. *)
Definition plays : parser N := fun _ mem _ => match mem with x :: _ => Ok (Theirs x) | [] => Throw InvalidTag end.
Definition shout : parser N := fun _ _ _ => Throw InvalidTag.
Definition ex_buf : bytes := B "XPC" ++ [0; 0; 1; 7] ++ B "TT2" ++ [0; 0; 3; 0; 72; 105] ++ [0; 0].

(** [XPC] is registered by one thread while another reads two tags: the first began
    earlier, and does not have it. *)
Definition ex_history : list (act N) :=
  [Begin 0%nat; RegGeneric (B "XPC") plays; RegText (B "TT2") shout; RegGeneric (B "XPC") shout;
   Begin 1%nat; Finish 0%nat 0 ex_buf; Finish 1%nat 0 ex_buf].
Example C107_read_nontrivial :
  holds (after start ex_history) 1%nat =
    Some ([(B "XPC", Theirs 7); (B "TT2", Own (BText (mkText 0 (B "Hi"))))], 2) /\
  holds (after start ex_history) 0%nat =
    Some ([(B "XPC", Own (BUnknown [7])); (B "TT2", Own (BText (mkText 0 (B "Hi"))))], 2).
Proof. split; vm_compute; reflexivity. Qed.
Example C107_laid_nontrivial :
  laid_and_made (generics [RegGeneric (B "XPC") plays]) (texts [RegText (B "TT2") shout]) []
    [(B "XPC", Theirs 7); (B "TT2", Own (BText (mkText 0 (B "Hi"))))] 2 ex_buf.
Proof.
  apply (lm_frame _ _ [] (B "XPC") plays (Theirs 7) [7] [(B "TT2", Own (BText (mkText 0 (B "Hi"))))] 2
           (B "TT2" ++ [0; 0; 3; 0; 72; 105] ++ [0; 0]) 0 0 1); try reflexivity; try discriminate.
  - repeat constructor.
  - apply ch_generic.
    + intros [K|[K|[K|K]]]; [discriminate K..|]. apply kind_text in K. discriminate K.
    + intros [K|[]]. discriminate K.
    + intros [K|[K|K]]; discriminate K.
    + intros [K|[K|K]]; discriminate K.
    + exists [], []. split; [reflexivity|]. intros [].
  - apply (lm_frame _ _ [] (B "TT2") (built_in V22 KText) (Own (BText (mkText 0 (B "Hi")))) [0; 72; 105] [] 2 [0; 0] 0 0 3);
      try reflexivity; try discriminate.
    + repeat constructor.
    + apply (ch_fixed _ _ (B "TT2")). do 3 right. now apply kind_text.
    + exact (lm_pad _ _ [] 2).
Qed.
Example C107_answer_nontrivial :
  fst (step (after start [RegGeneric (B "XPC") plays]) (RegGeneric (B "XPC") shout)) = Present /\
  fst (step (@start N) (RegGeneric (B "XPC") plays)) = Added /\
  fst (step (@start N) (RegGeneric (B "UFI") plays)) = Present /\
  fst (step (@start N) (RegText (B "UFI") plays)) = Added /\
  fst (step (@start N) (RegText (B "CNT") plays)) = Added.
Proof. repeat split. Qed.
Example C107_elsewhere_nontrivial :
  holds (after start [@Begin N 0%nat; Finish 0%nat 0 ex_buf]) 0%nat =
    Some ([(B "XPC", Own (BUnknown [7])); (B "TT2", Own (BText (mkText 0 (B "Hi"))))], 2) /\
  holds (after start [RegText (B "UFI") shout; @Begin N 0%nat; Finish 0%nat 0 ex_buf]) 0%nat =
    Some ([(B "XPC", Own (BUnknown [7])); (B "TT2", Own (BText (mkText 0 (B "Hi"))))], 2).
Proof. split; vm_compute; reflexivity. Qed.

Print Assumptions C107_read.
Print Assumptions C107_one.
Print Assumptions C107_answer.
Print Assumptions C107_elsewhere.
Print Assumptions C107_default.
Print Assumptions C107_replaced_refuted.
Print Assumptions C107_accepted_refuted.
Print Assumptions C107_tag_refuted.
Print Assumptions C107_reserved_refuted.
