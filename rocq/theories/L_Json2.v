(** * Lemmas: the printed text is the text of the object. *)
From Verif Require Import Base M_Charset M_Payload M_Cloud M_Csv S_Csv L_Csv S_Json M_Json L_Json S_JsonTag.

(** ** Numerals. *)
Lemma digit_is_dec d : d < 10 -> is_dec (digit d) = true.
Proof.
  intros H. unfold digit, is_dec. rewrite (proj2 (N.ltb_lt d 10) H).
  destruct (N.leb_spec 48 (48 + d)); [|lia]. destruct (N.leb_spec (48 + d) 57); [reflexivity | lia].
Qed.

Lemma number_loop_dec fuel n : forallb is_dec (number_loop 10 fuel n) = true.
Proof.
  revert n. induction fuel as [|f IH]; intros n; [reflexivity|]. cbn [number_loop].
  destruct (N.ltb_spec n 10) as [L | L].
  - cbn. now rewrite digit_is_dec.
  - rewrite forallb_app, IH. cbn. rewrite digit_is_dec; [reflexivity|]. apply N.mod_lt. lia.
Qed.

Lemma number_loop_first fuel n : n <> 0 -> (N.to_nat (N.log2 n) < fuel)%nat ->
  exists c r, number_loop 10 fuel n = c :: r /\ c <> 48.
Proof.
  revert n. induction fuel as [|f IH]; intros n Hn Hf; [lia|]. cbn [number_loop].
  destruct (N.ltb_spec n 10) as [L | L].
  - eexists _, _. split; [reflexivity|]. unfold digit. rewrite (proj2 (N.ltb_lt n 10) L). lia.
  - destruct (IH (n / 10)) as (c & r & E & Hc).
    + assert (1 <= n / 10) by (apply N.div_le_lower_bound; lia). lia.
    + apply fuel_div; lia.
    + rewrite E. eexists _, _. split; [reflexivity | assumption].
Qed.

Lemma span_all p l : forallb p l = true -> span p l = (l, []).
Proof. induction l as [|c l IH]; [reflexivity|]. cbn. intros H. apply Bool.andb_true_iff in H as [H1 H2]. now rewrite H1, IH. Qed.

Lemma number_is_number n : number_ok (number 10 n) = true /\ forallb in_number (number 10 n) = true.
Proof.
  pose proof (number_loop_dec (S (N.to_nat (N.log2 n))) n) as D. fold (number 10 n) in D. split.
  - destruct (N.eq_dec n 0) as [-> | Hn]; [reflexivity|].
    destruct (number_loop_first (S (N.to_nat (N.log2 n))) n) as (c & r & E & Hc); [assumption | lia|].
    fold (number 10 n) in E. rewrite E in *. cbn in D. apply Bool.andb_true_iff in D as [D1 D2].
    unfold number_ok. assert (c =? 45 = false) as ->.
    { apply N.eqb_neq. intros ->. discriminate. }
    unfold int_ok. rewrite (proj2 (N.eqb_neq _ _) Hc), D1, span_all by assumption. reflexivity.
  - revert D. generalize (number 10 n). induction b as [|c b IH]; [reflexivity|]. cbn. intros H.
    apply Bool.andb_true_iff in H as [H1 H2]. unfold in_number. rewrite H1. cbn. auto.
Qed.
Lemma jnum_wf n : wf (jnum n).
Proof. apply number_is_number. Qed.

Lemma int_text_small n : n < 2 ^ 31 -> int_text n = number 10 n.
Proof.
  intros H. unfold int_text. rewrite N.mod_small by lia. now rewrite (proj2 (N.ltb_lt _ _) H).
Qed.

(** ** Texts without NUL. *)
Lemma c_str_app_id a b : ~ In 0 a -> c_str (a ++ b) = a ++ c_str b.
Proof.
  induction a as [|c a IH]; intros H; [reflexivity|]. cbn. destruct (N.eqb_spec c 0) as [-> | _].
  - exfalso. apply H. now left.
  - f_equal. apply IH. intros X. apply H. now right.
Qed.
Lemma c_str_id a : ~ In 0 a -> c_str a = a.
Proof. intros H. rewrite <- (app_nil_r a) at 1. rewrite c_str_app_id by assumption. cbn. apply app_nil_r. Qed.

Lemma jescape_char_nul c : In 0 (jescape_char c) -> c = 0.
Proof.
  unfold jescape_char.
  repeat match goal with |- context [c =? ?b] => destruct (N.eqb_spec c b); [subst c; cbn; lia|] end.
  cbn. lia.
Qed.
Lemma jescape_nul s : In 0 (jescape s) -> In 0 s.
Proof.
  unfold jescape. rewrite in_flat_map. intros (c & Hc & H). apply jescape_char_nul in H. now subst.
Qed.
Lemma printable_nul s : printable s -> ~ In 0 s.
Proof.
  intros P H. unfold printable in P. rewrite Forall_forall in P. apply P in H. destruct H as [H | H]; [lia|]. cbn in H. lia.
Qed.
Lemma plain_nul s : plain s -> ~ In 0 s.
Proof. intros P. apply printable_nul, plain_printable, P. Qed.
Lemma number_nul n : ~ In 0 (number 10 n).
Proof.
  intros H. pose proof (number_hex 10 n ltac:(lia) ltac:(lia)) as D. rewrite Forall_forall in D. apply D in H. unfold hexdigit in H. lia.
Qed.

Lemma escape_printable_nul s : printable s -> ~ In 0 (jescape s).
Proof. intros P H. apply jescape_nul in H. now apply printable_nul in P. Qed.

Ltac flat := repeat (progress (cbn; rewrite <- ?app_assoc)).

(** ** Frames. *)
Lemma show_obj l : show (JObj l) = 123 :: join 44 (map member_text l) ++ [125].
Proof. reflexivity. Qed.
Lemma join_map_cons sep (x y : bytes) l : join sep (x :: y :: l) = x ++ sep :: join sep (y :: l).
Proof. reflexivity. Qed.


Lemma key_plain k : forallb (fun c => (32 <=? c) && negb (c =? 34) && negb (c =? 92)) k = true -> plain k.
Proof.
  unfold plain. rewrite forallb_forall, Forall_forall. intros H c Hc. apply H in Hc.
  apply Bool.andb_true_iff in Hc as [Hc H3]. apply Bool.andb_true_iff in Hc as [H1 H2].
  apply N.leb_le in H1. apply Bool.negb_true_iff, N.eqb_neq in H2, H3. unfold plain_char. auto.
Qed.

Lemma text_printable k : forallb (fun c => (32 <=? c) || existsb (N.eqb c) [8; 9; 10; 12; 13]) k = true -> printable k.
Proof.
  unfold printable. rewrite forallb_forall, Forall_forall. intros H c Hc. apply H in Hc.
  apply Bool.orb_true_iff in Hc as [Hc | Hc]; [left; now apply N.leb_le|]. right.
  apply existsb_exists in Hc. destruct Hc as (x & Hx & E). apply N.eqb_eq in E. now subst.
Qed.

Lemma frame_shown f : usual_frame f -> well_printed f -> json_frame V23 f = show (frame_object f).
Proof.
  intros (U & _) (M & P).
  destruct f as [id size | id size t | id size o | id size d t | size n | id size e r n | id size o tg | id size e | id size e];
    cbn [misprinted] in M; try (exfalso; now apply M); clear M; destruct U as (Hp & Hs);
    cbn [json_frame frame_object app]; rewrite show_obj; unfold frame_start; rewrite int_text_small by assumption;
    rewrite <- (escape_plain id) at 1 by assumption; cbn [map join]; unfold member_text; cbn [fst snd show jnum];
    generalize (number 10 size); try generalize (number 10 r); try generalize (number 10 n); intros;
    generalize (jescape id); try generalize (jescape t); try generalize (jescape e); try generalize (jescape d); intros;
    flat; reflexivity.
Qed.

Lemma frame_wf f : usual_frame f -> well_printed f -> wf (frame_object f).
Proof.
  intros (U & _) (M & P).
  destruct f as [id size | id size t | id size o | id size d t | size n | id size e r n | id size o tg | id size e | id size e];
    cbn [misprinted] in M; try (exfalso; now apply M); clear M; destruct U as (Hp & Hs);
    cbn [frame_texts] in P; repeat match goal with H : Forall _ (_ :: _) |- _ => inversion H; clear H; subst end;
    cbn [frame_object app]; cbn [wf fst snd]; repeat split; try apply number_is_number; try assumption;
    try (apply plain_printable; assumption); try (apply plain_printable, key_plain; reflexivity).
Qed.

Lemma frame_nul f : usual_frame f -> well_printed f -> ~ In 0 (json_frame V23 f).
Proof.
  intros (U & _) (M & P).
  destruct f as [id size | id size t | id size o | id size d t | size n | id size e r n | id size o tg | id size e | id size e];
    cbn [misprinted] in M; try (exfalso; now apply M); clear M; destruct U as (Hp & Hs);
    cbn [frame_texts] in P; repeat match goal with H : Forall _ (_ :: _) |- _ => inversion H; clear H; subst end;
    cbn [json_frame]; unfold frame_start; rewrite int_text_small by assumption; rewrite !in_app_iff;
    intros X;
    repeat match type of X with _ \/ _ => destruct X as [X | X] | (_ \/ _) \/ _ => destruct X as [X | X] end;
    try (now apply number_nul in X); try (now apply plain_nul in X);
    try (apply escape_printable_nul in X; [assumption | assumption]);
    try (cbn in X; lia).
Qed.

Lemma frames_shown l : Forall usual_frame l -> Forall well_printed l ->
  map (fun f => c_str (json_frame V23 f)) l = map show (map frame_object l).
Proof.
  intros U W. induction l as [|f l IH]; [reflexivity|]. inversion U; inversion W; subst. cbn [map]. rewrite IH by assumption.
  f_equal. rewrite c_str_id by now apply frame_nul. now apply frame_shown.
Qed.
Lemma wf_arr l : Forall wf l -> wf (JArr l).
Proof. induction 1; cbn; auto. Qed.

Definition engaged (u : option bool) : bool := match u with Some _ => true | None => false end.

Lemma tag23_shown t : usual_tag t -> Forall well_printed (j_frames t) ->
  json_tag23 t = show (tag_object (engaged (j_unsync t)) t).
Proof.
  intros U W. unfold json_tag23, tag_object. rewrite (frames_shown _ U W). rewrite show_obj. cbn [map join]. unfold member_text. cbn [fst snd].
  change (show (JArr (map frame_object (j_frames t)))) with (91 :: join 44 (map show (map frame_object (j_frames t))) ++ [93]).
  generalize (join 44 (map show (map frame_object (j_frames t)))). intros J. cbn [show jnum].
  generalize (number 10 (j_flags t)), (number 10 (j_size t)), (number 10 (j_padding t)). intros a b c.
  destruct (j_unsync t); flat; reflexivity.
Qed.

Lemma tag23_wf u t : usual_tag t -> Forall well_printed (j_frames t) -> wf (tag_object u t).
Proof.
  intros U W. unfold tag_object. cbn [wf fst snd]. repeat split; try apply number_is_number; try (apply plain_printable, key_plain; reflexivity).
  apply wf_arr. apply Forall_forall. intros x Hx. apply in_map_iff in Hx. destruct Hx as (f & <- & Hf).
  rewrite Forall_forall in W. unfold usual_tag in U. rewrite Forall_forall in U. apply frame_wf; auto.
Qed.

(** ** Track data and ID3v1 tags. *)
Definition hex_digits (md5 : bytes) : bytes := flat_map (fun x => width2 (number 16 x)) md5.
Lemma hex_digits_plain md5 : plain (hex_digits md5).
Proof.
  unfold plain, hex_digits. apply Forall_forall. intros c Hc. apply in_flat_map in Hc. destruct Hc as (x & _ & Hc).
  pose proof (number_hex 16 x ltac:(lia) ltac:(lia)) as D. rewrite Forall_forall in D.
  assert (In c [48] \/ In c (number 16 x)) as Hd.
  { destruct (number 16 x) as [|a [|b r]]; cbn in Hc |- *; intuition. }
  unfold plain_char. destruct Hd as [Hd | Hd]; [cbn in Hd; lia|]. apply D in Hd. unfold hexdigit in Hd. lia.
Qed.

Lemma track_shown md5 : json_track md5 = show (track_object (hex_digits md5)).
Proof.
  unfold json_track. fold (hex_digits md5). unfold track_object. rewrite show_obj. cbn [map join]. unfold member_text. cbn [fst snd show].
  rewrite (escape_plain _ (hex_digits_plain md5)). generalize (hex_digits md5). intros. flat. reflexivity.
Qed.
Lemma track_wf md5 : wf (track_object (hex_digits md5)).
Proof. cbn [wf track_object fst snd]. repeat split. - apply plain_printable, key_plain; reflexivity. - apply plain_printable, hex_digits_plain. Qed.

Lemma v1_shown t : plain (j1_album t) -> json_v1 t = show (v1_object t).
Proof.
  intros P. unfold json_v1, v1_object, v1_version. rewrite show_obj. rewrite <- (escape_plain _ P) at 1.
  destruct (j1_1 t), (j1_enh t) as [g|], (j1_track t) as [n|]; cbn [app map join]; unfold member_text; cbn [fst snd show jnum];
    try generalize (number 10 n); generalize (number 10 (j1_genre t)); intros;
    try generalize (jescape g); generalize (jescape (j1_album t)), (jescape (j1_artist t)), (jescape (j1_comment t)), (jescape (j1_title t)), (jescape (j1_year t)); intros;
    flat; reflexivity.
Qed.
Lemma v1_wf t : plain (j1_album t) -> Forall printable (v1_texts t) -> wf (v1_object t).
Proof.
  intros P F. unfold v1_texts in F. unfold v1_object, v1_version.
  destruct (j1_1 t), (j1_enh t) as [g|], (j1_track t) as [n|]; cbn [app] in F;
  repeat match goal with H : Forall _ (_ :: _) |- _ => inversion H; clear H; subst end;
  cbn [app wf fst snd]; repeat split; try apply number_is_number; try assumption; try (apply plain_printable; assumption);
  try (apply plain_printable, key_plain; reflexivity).
Qed.
