(** * Proofs: rows of the report as texts. *)
From Verif Require Import Base M_Ints M_Stream M_Id3v1 M_Payload M_Frame M_Tag22 M_Tag23 M_Tag24 M_Charset M_Lookup M_Mp3 M_Track M_Read
  M_Tagset M_Process M_Cmds M_Csv M_Report S_Lookup S_Cmds S_Csv S_Report S_Tdf L_Lookup L_Cmds L_Report.
#[local] Open Scope N_scope.

Definition gopt (st : style) (x : option bytes) : bytes := match x with Some s => st_esc st s | None => [] end.
Definition gtexts (st : style) (l : list (option bytes)) : bytes := flat_map (fun x => gopt st x ++ [st_sep st]) l.
Definition gcomments (st : style) (ncomm : nat) (l : list bytes) : bytes :=
  flat_map (fun i => gopt st (nth_error l i) ++ (if Nat.eqb i (ncomm - 1) then [] else [st_sep st])) (seq 0 ncomm).
Definition gplays (V : tagview) : bytes :=
  if tv_pcnt V =? 1 then number 16 (tv_plays V) else if 1 <? tv_pcnt V then [42] else [].
Definition gtag (st : style) (ncomm : nat) (V : tagview) : bytes :=
  number 10 (tv_version V) ++ [st_sep st] ++
  number 10 (tv_revision V) ++ [st_sep st] ++
  number 10 (tv_size V) ++ [st_sep st] ++
  B "0x" ++ width2 (number 16 (tv_flags V)) ++
  [st_sep st] ++ number 16 (optional_to_uint (tv_unsync V)) ++ [st_sep st] ++
  gtexts st (tv_texts V) ++
  number 16 (tv_pcnt V) ++ [st_sep st] ++ gplays V ++ [st_sep st] ++
  number 16 (tv_ncomm V) ++ [st_sep st] ++
  gcomments st ncomm (tv_comments V).
Definition gv1 (st : style) (W : v1view) : bytes :=
  number 16 (if w1_1 W then 1 else 0) ++ [st_sep st] ++
  number 16 (if w1_ext W then 1 else 0) ++ [st_sep st] ++
  st_esc st (w1_artist W) ++ [st_sep st] ++
  st_esc st (w1_title W) ++ [st_sep st] ++
  st_esc st (w1_album W) ++ [st_sep st] ++
  st_esc st (w1_year W) ++ [st_sep st] ++
  st_esc st (w1_comment W) ++ [st_sep st] ++
  number 10 (w1_genre W).
Definition grow (st : style) (no_dir : bool) (ncomm : nat) (dir name mb : bytes)
    (v2 : option tagview) (size : N) (md5 : bytes) (v1 : option v1view) : bytes :=
  (if no_dir then [] else quoted_path dir ++ [st_sep st]) ++
  quoted_path name ++ [st_sep st] ++ mb ++ [st_sep st] ++
  (match v2 with Some V => gtag st ncomm V | None => repeat (st_sep st) 14 ++ repeat (st_sep st) ncomm end) ++
  [st_sep st] ++ pprint_track_data (st_sep st) size md5 ++ [st_sep st] ++
  (match v1 with Some W => gv1 st W | None => repeat (st_sep st) 7 end) ++
  [newline].

Lemma grow_csv no_dir ncomm dir name mb v2 size md5 v1 :
  grow csv_style no_dir ncomm dir name mb v2 size md5 v1 = report_row no_dir ncomm dir name mb v2 size md5 v1.
Proof. destruct v2, v1; reflexivity. Qed.

(** ** Frames *)
Lemma frame_text_says w v f s : frame_text w v f = Ok s <-> says (w_ic w) v f s.
Proof.
  unfold frame_text, says, reads. split.
  - destruct (f_body f) as [b| | |x| | | | | |] eqn:B; intros E; try discriminate E.
    + right. apply Ok_inj in E. eauto.
    + left. eauto.
  - intros [(x & B & E)|(b & B & ->)]; rewrite B; [exact E|reflexivity].
Qed.
Lemma comment_text_remarks w v f s : comment_text w v (f_body f) = Ok s <-> remarks (w_ic w) v f s.
Proof.
  unfold comment_text, remarks. split.
  - destruct (f_body f) as [b| | |x| |c| | | |] eqn:B; intros E; try discriminate E.
    exists c. split; [reflexivity|]. destruct (co_text c) as [|a l] eqn:T; [left; apply Ok_inj in E; auto|]. right.
    split; [discriminate|]. destruct (co_unicode c) as [u|]; [|discriminate E]. exists u. auto.
  - intros (c & B & [(T & ->)|(NE & u & U & E)]); rewrite B.
    + rewrite T. reflexivity.
    + destruct (co_text c) as [|a l]; [congruence|]. rewrite U. exact E.
Qed.

Lemma zero_iff {A} (l : list A) : (N.of_nat (length l) =? 0) = match l with [] => true | _ => false end.
Proof. destruct l; [reflexivity|]. cbn [length]. destruct (N.eqb_spec (N.of_nat (S (length l))) 0); [lia|reflexivity]. Qed.

Lemma text_column_told st w t id : fresh t -> snd (text_column st w (any_version t) (tables t) id) = Ok tt ->
  exists x, tag_says (w_ic w) (any_version t) (shown t) id x /\
            text_column st w (any_version t) (tables t) id = (gopt st x ++ [st_sep st], Ok tt).
Proof.
  intros F. unfold text_column. rewrite has_frame_fresh by exact F. rewrite zero_iff. unfold tag_says.
  destruct (with_id id (shown t)) as [|f0 l] eqn:W.
  - intros _. exists None. split; reflexivity.
  - destruct (get_frame_fresh t id (w_ids w (l_ids (tables t)) id) F) as (f & G & I); [congruence|]. rewrite G. cbn [bind].
    intros E. apply pthen_inv in E as (E & _). apply pput_ok in E as (s & E). apply bind_ok in E as (x & E & Q).
    rewrite E. exists (Some x). split; [|reflexivity]. exists f, x. rewrite W in I. split; [exact I|]. split; [apply frame_text_says; exact E|reflexivity].
Qed.
Lemma text_column_ok st w t id : fresh t ->
  (forall f, In f (with_id id (shown t)) -> exists s, says (w_ic w) (any_version t) f s) ->
  snd (text_column st w (any_version t) (tables t) id) = Ok tt.
Proof.
  intros F H. unfold text_column. rewrite has_frame_fresh by exact F. rewrite zero_iff.
  destruct (with_id id (shown t)) as [|f0 l] eqn:W; [reflexivity|].
  destruct (get_frame_fresh t id (w_ids w (l_ids (tables t)) id) F) as (f & G & I); [congruence|]. rewrite G. cbn [bind].
  rewrite W in I. destruct (H f I) as (s & E). apply frame_text_says in E. rewrite E. reflexivity.
Qed.

Lemma text_columns_told st w t ids : fresh t -> snd (pall (map (text_column st w (any_version t) (tables t)) ids)) = Ok tt ->
  exists xs, Forall2 (tag_says (w_ic w) (any_version t) (shown t)) ids xs /\
             pall (map (text_column st w (any_version t) (tables t)) ids) = (gtexts st xs, Ok tt).
Proof.
  intros F. unfold pall. induction ids as [|id r IH]; cbn [map fold_right]; intros E; [exists []; split; [constructor|reflexivity]|].
  apply pthen_inv in E as (E1 & E2). destruct (text_column_told st w t id F E1) as (x & S1 & Q1).
  destruct (IH E2) as (xs & S2 & Q2). exists (x :: xs). split; [constructor; assumption|].
  rewrite Q1, pthen_ok by reflexivity. rewrite Q2. reflexivity.
Qed.

(** ** The count *)
Lemma play_count_body t f b : fresh t -> with_id (count_id (any_version t)) (shown t) = [f] ->
  play_count (any_version t) (tables t) = Ok b -> b = f_body f.
Proof.
  intros F W E. pose proof (counts_in_order t F) as C. rewrite W in C. cbn [map] in C. unfold play_count in E.
  destruct (has_play_count (any_version t) (tables t)) as [|[p|p|]]; try discriminate E.
  unfold get_counts in C. destruct (l_counts (tables t)) as [|(a, i) r]; [discriminate C|].
  cbn [get_all] in C. destruct (at_addr a (tables t)) as [c|]; [|discriminate C]. apply bind_ok in C as (bs & _ & C).
  apply Ok_inj in C. apply Ok_inj in E. congruence.
Qed.
Lemma one_iff {A} (l : list A) : (N.of_nat (length l) =? 1) = match l with [_] => true | _ => false end.
Proof. destruct l as [|x [|y l]]; [reflexivity|reflexivity|]. cbn [length]. destruct (N.eqb_spec (N.of_nat (S (S (length l)))) 1); [lia|reflexivity]. Qed.

Lemma count_told st t : fresh t -> snd (count_columns st (any_version t) (tables t)) = Ok tt ->
  exists k, (forall f, with_id (count_id (any_version t)) (shown t) = [f] -> exists b, f_body f = BCount b /\ counter_value b = Ok k) /\
    let n := N.of_nat (length (with_id (count_id (any_version t)) (shown t))) in
    count_columns st (any_version t) (tables t) =
    (number 16 n ++ [st_sep st] ++ (if n =? 1 then number 16 k else if 1 <? n then [42] else []) ++ [st_sep st], Ok tt).
Proof.
  intros F. unfold count_columns. rewrite has_frame_fresh by exact F. cbv zeta. rewrite one_iff.
  destruct (with_id (count_id (any_version t)) (shown t)) as [|f [|g l]] eqn:W.
  - intros _. exists 0. split; [intros f Q; discriminate Q|]. reflexivity.
  - intros E. apply pthen_inv in E as (_ & E). apply pthen_inv in E as (E & _). apply pput_ok in E as (s & E).
    apply bind_ok in E as (k & E & _). assert (E0 := E). unfold plays_text in E. apply bind_ok in E as (b & E1 & E2).
    destruct b as [| | | | | |c| | |]; try discriminate E2.
    exists k. split.
    + intros f' Q. injection Q as <-. exists c. split; [|exact E2]. symmetry. eapply play_count_body; eauto.
    + rewrite E0. cbn [bind pput pthen put snd fst app]. rewrite <- ?app_assoc. reflexivity.
  - intros _. exists 0. split; [intros f' Q; discriminate Q|]. rewrite !put_then. cbn [fst snd].
    assert (L : 1 <? N.of_nat (length (f :: g :: l)) = true) by (apply N.ltb_lt; cbn [length]; lia).
    rewrite L. rewrite <- ?app_assoc. reflexivity.
Qed.
Lemma count_ok st t : fresh t ->
  (any_version t = V24 -> length (with_id (B "PCNT") (shown t)) <> 1%nat) ->
  (forall f, with_id (count_id (any_version t)) (shown t) = [f] -> exists b n, f_body f = BCount b /\ counter_value b = Ok n) ->
  snd (count_columns st (any_version t) (tables t)) = Ok tt.
Proof.
  intros F V H. unfold count_columns. rewrite has_frame_fresh by exact F. cbv zeta. rewrite one_iff.
  destruct (with_id (count_id (any_version t)) (shown t)) as [|f [|g l]] eqn:W; [reflexivity| |].
  - destruct (H f eq_refl) as (b & n & B1 & B2). assert (P : plays_text (any_version t) (tables t) = Ok n).
    { unfold plays_text. rewrite (play_count_fresh t f F), B1; [exact B2| |exact W]. intros Q. apply (V Q). rewrite Q in W. cbn [count_id] in W. rewrite W. reflexivity. }
    rewrite P. reflexivity.
  - assert (L : 1 <? N.of_nat (length (f :: g :: l)) = true) by (apply N.ltb_lt; cbn [length]; lia).
    rewrite L. reflexivity.
Qed.

(** ** The comments *)
Lemma nth_error_firstn {A} n (l : list A) i : (i < n)%nat -> nth_error (firstn n l) i = nth_error l i.
Proof. revert l i. induction n as [|n IH]; intros [|x l] [|i] H; try lia; try reflexivity. cbn. apply IH. lia. Qed.
Lemma comments_told st w ncomm t : fresh t -> snd (comments_columns st w (any_version t) ncomm (tables t)) = Ok tt ->
  exists ss, Forall2 (remarks (w_ic w) (any_version t)) (firstn ncomm (with_id (comm_id (any_version t)) (shown t))) ss /\
    comments_columns st w (any_version t) ncomm (tables t) =
    (number 16 (N.of_nat (length (with_id (comm_id (any_version t)) (shown t)))) ++ [st_sep st] ++ gcomments st ncomm ss, Ok tt).
Proof.
  intros F. unfold comments_columns. rewrite has_frame_fresh, comments_in_order by exact F.
  set (fs := with_id (comm_id (any_version t)) (shown t)). intros E. apply pthen_inv in E as (_ & E).
  pose proof (pall_inv _ _ E) as P.
  assert (G : exists ss, Forall2 (remarks (w_ic w) (any_version t)) (firstn ncomm fs) ss).
  { assert (A : forall f, In f (firstn ncomm fs) -> exists s, remarks (w_ic w) (any_version t) f s).
    { intros f I. apply In_nth_error in I as (i & I).
      assert (L : (i < length (firstn ncomm fs))%nat) by (apply nth_error_Some; congruence).
      rewrite firstn_length in L. rewrite nth_error_firstn in I by lia.
      assert (Q : snd (comment_column st w (any_version t) ncomm (map f_body fs) i) = Ok tt) by (apply P, in_seq; lia).
      unfold comment_column in Q. rewrite nth_error_map, I in Q. cbn [option_map] in Q. apply pthen_inv in Q as (Q & _).
      apply pput_ok in Q as (s & Q). apply bind_ok in Q as (s' & Q & _). exists s'. apply comment_text_remarks. exact Q. }
    clear -A. induction (firstn ncomm fs) as [|f r IH]; [exists []; constructor|].
    destruct (A f (or_introl eq_refl)) as (s & S1). destruct IH as (ss & S2); [intros g I; apply A; right; exact I|]. exists (s :: ss). constructor; assumption. }
  destruct G as (ss & G). exists ss. split; [exact G|]. rewrite put_then.
  rewrite (pall_ok _ (fun i => gopt st (nth_error ss i) ++ (if Nat.eqb i (ncomm - 1) then [] else [st_sep st]))).
  - cbn [fst snd]. rewrite <- app_assoc. reflexivity.
  - intros i I. apply in_seq in I. unfold comment_column. rewrite nth_error_map.
    assert (Q : match nth_error fs i with Some f => exists s, nth_error ss i = Some s /\ remarks (w_ic w) (any_version t) f s | None => nth_error ss i = None end).
    { rewrite <- (nth_error_firstn ncomm fs i) by lia. clear -G. revert i. induction G as [|f s r ss R G IH]; intros [|i]; cbn; try reflexivity; [eauto|apply IH]. }
    destruct (nth_error fs i) as [f|]; cbn [option_map].
    + destruct Q as (s & Q1 & Q2). apply comment_text_remarks in Q2. rewrite Q2, Q1. reflexivity.
    + rewrite Q. reflexivity.
Qed.
Lemma pall_all {A} (f : A -> pr) l : (forall x, In x l -> snd (f x) = Ok tt) -> snd (pall (map f l)) = Ok tt.
Proof.
  unfold pall. induction l as [|x r IH]; intros H; [reflexivity|]. cbn [map fold_right]. rewrite pthen_ok by (apply H; left; reflexivity).
  cbn [snd]. apply IH. intros y Y. apply H. right. exact Y.
Qed.
Lemma comments_ok st w ncomm t : fresh t ->
  (forall f, In f (firstn ncomm (with_id (comm_id (any_version t)) (shown t))) -> exists s, remarks (w_ic w) (any_version t) f s) ->
  snd (comments_columns st w (any_version t) ncomm (tables t)) = Ok tt.
Proof.
  intros F H. unfold comments_columns. rewrite comments_in_order by exact F. rewrite put_then. cbn [snd]. apply pall_all.
  intros i I. apply in_seq in I. unfold comment_column. rewrite nth_error_map.
  destruct (nth_error (with_id (comm_id (any_version t)) (shown t)) i) as [f|] eqn:NE; cbn [option_map]; [|reflexivity].
  destruct (H f) as (s & S1).
  { apply (nth_error_In _ i). rewrite nth_error_firstn by lia. exact NE. }
  apply comment_text_remarks in S1. rewrite S1. reflexivity.
Qed.

(** ** The tags *)
Lemma print_tag2_told st z w ncomm rev t : fresh t -> snd (print_tag2 st z w ncomm rev t) = Ok tt ->
  exists V, answers z (w_ic w) ncomm rev t V /\ print_tag2 st z w ncomm rev t = (gtag st ncomm V, Ok tt).
Proof.
  intros F. unfold print_tag2. intros E. apply pthen_inv in E as (_ & E). apply pthen_inv in E as (E1 & E).
  apply pthen_inv in E as (_ & E). apply pthen_inv in E as (E2 & E). apply pthen_inv in E as (E3 & E4).
  apply pput_ok in E1 as (s1 & E1). apply bind_ok in E1 as ((n, t') & E1 & Q).
  destruct (text_columns_told _ _ _ _ F E2) as (xs & X1 & X2). destruct (count_told _ _ F E3) as (k & K1 & K2). cbv zeta in K2.
  destruct (comments_told _ _ _ _ F E4) as (ss & C1 & C2).
  exists (mkView (number_of (any_version t)) rev (n mod 2 ^ 64) (any_flags t) (any_unsync t) xs
            (N.of_nat (length (with_id (count_id (any_version t)) (shown t)))) k
            (N.of_nat (length (with_id (comm_id (any_version t)) (shown t)))) ss).
  split.
  - unfold answers. cbn [tv_version tv_revision tv_size tv_flags tv_unsync tv_texts tv_pcnt tv_plays tv_ncomm tv_comments].
    split; [reflexivity|]. split; [reflexivity|]. split; [eauto|]. split; [reflexivity|]. split; [reflexivity|].
    split; [|split; [reflexivity|split; [exact K1|split; [reflexivity|exact C1]]]].
    replace (asked (any_version t)) with (column_ids (any_version t)) by (destruct (any_version t); reflexivity). exact X1.
  - rewrite E1, X2, K2, C2. cbn [bind pput put]. rewrite !pthen_ok by reflexivity. cbn [fst snd put].
    unfold gtag, gplays, wrap64. cbn [tv_version tv_revision tv_size tv_flags tv_unsync tv_texts tv_pcnt tv_plays tv_ncomm tv_comments].
    rewrite <- ?app_assoc. reflexivity.
Qed.
Lemma print_tag2_ok st z w ncomm rev t : fresh t -> tellable z (w_ic w) ncomm t ->
  (any_version t = V24 -> length (with_id (B "PCNT") (shown t)) <> 1%nat) ->
  snd (print_tag2 st z w ncomm rev t) = Ok tt.
Proof.
  intros F ((r & SZ) & TX & CN & CM) V. unfold print_tag2. rewrite put_then. cbn [snd].
  rewrite SZ. destruct r as (n, t'). cbn [bind pput]. rewrite pthen_ok by reflexivity. cbn [snd]. rewrite put_then. cbn [snd].
  rewrite pthen_ok.
  2:{ apply pall_all. intros id I. apply text_column_ok; [exact F|]. intros f FI. apply (TX id); [|exact FI].
      replace (asked (any_version t)) with (column_ids (any_version t)) by (destruct (any_version t); reflexivity). exact I. }
  cbn [snd]. rewrite pthen_ok by (apply count_ok; assumption). cbn [snd]. apply comments_ok; assumption.
Qed.

Lemma flag_number b : flag_text b = number 16 (if b then 1 else 0).
Proof. destruct b; reflexivity. Qed.
Lemma v1_column_told st w e field : snd (v1_column st w e field) = Ok tt ->
  exists s, to_string (w_ic w) field e E_UTF_8 NoFail = Ok s /\ v1_column st w e field = (st_esc st s ++ [st_sep st], Ok tt).
Proof.
  unfold v1_column. intros E. apply pthen_inv in E as (E & _). apply pput_ok in E as (s & E). apply bind_ok in E as (s' & E & Q).
  exists s'. split; [exact E|]. rewrite E. reflexivity.
Qed.
Lemma print_tag1_told st w e t : snd (print_tag1 st w e t) = Ok tt ->
  exists W, answers_v1 (w_ic w) e t W /\ print_tag1 st w e t = (gv1 st W, Ok tt).
Proof.
  unfold print_tag1. intros E. apply pthen_inv in E as (_ & E). apply pthen_inv in E as (E & _).
  assert (P : forall x, In x [v_artist t; v_title t; v_album t; v_year t; v_comment t] -> snd (v1_column st w e x) = Ok tt) by (apply pall_inv; exact E).
  destruct (v1_column_told st w e (v_artist t)) as (s1 & A1 & B1); [apply P; cbn [In]; tauto|].
  destruct (v1_column_told st w e (v_title t)) as (s2 & A2 & B2); [apply P; cbn [In]; tauto|].
  destruct (v1_column_told st w e (v_album t)) as (s3 & A3 & B3); [apply P; cbn [In]; tauto|].
  destruct (v1_column_told st w e (v_year t)) as (s4 & A4 & B4); [apply P; cbn [In]; tauto|].
  destruct (v1_column_told st w e (v_comment t)) as (s5 & A5 & B5); [apply P; cbn [In]; tauto|].
  exists (M_Csv.mkV1 (v_v1_1 t) (v_extended t) s1 s2 s3 s4 s5 (v_genre t)). split.
  - unfold answers_v1. cbn [w1_1 w1_ext w1_artist w1_title w1_album w1_year w1_comment w1_genre].
    split; [reflexivity|]. split; [reflexivity|]. split; [reflexivity|]. repeat (constructor; [assumption|]). constructor.
  - unfold pall. cbn [map fold_right]. rewrite B1, B2, B3, B4, B5. rewrite !pthen_ok by reflexivity. cbn [fst snd put].
    rewrite !flag_number. unfold gv1. cbn [w1_1 w1_ext w1_artist w1_title w1_album w1_year w1_comment w1_genre].
    rewrite <- ?app_assoc. reflexivity.
Qed.
Lemma print_tag1_ok st w e t : tellable_v1 (w_ic w) e t -> snd (print_tag1 st w e t) = Ok tt.
Proof.
  intros H. unfold print_tag1. rewrite put_then. cbn [snd]. rewrite pthen_ok; [reflexivity|]. apply pall_all. intros x X.
  destruct (H x X) as (s & E). unfold v1_column. rewrite E. reflexivity.
Qed.

(** ** The row *)
Lemma make_entry_told st z w e no_dir ncomm f v2 tr v1 :
  (forall rev t, v2 = Some (rev, t) -> fresh t) ->
  snd (make_entry st z w e no_dir ncomm f v2 tr v1) = Ok tt ->
  exists V W, optionally (fun x => answers z (w_ic w) ncomm (fst x) (snd x)) v2 V /\ optionally (answers_v1 (w_ic w) e) v1 W /\
    make_entry st z w e no_dir ncomm f v2 tr v1 =
    (grow st no_dir ncomm (rf_dir f) (rf_name f) (mb_text (len (rf_data f))) V (tr_size tr) (tr_md5 tr) W, Ok tt).
Proof.
  intros F E. unfold make_entry in *. apply pthen_inv in E as (_ & E). apply pthen_inv in E as (E1 & E). apply pthen_inv in E as (_ & E).
  apply pthen_inv in E as (E2 & _).
  assert (A : exists V, optionally (fun x => answers z (w_ic w) ncomm (fst x) (snd x)) v2 V /\
     match v2 with Some (rev, t) => print_tag2 st z w ncomm rev t | None => put (repeat (st_sep st) (14 + ncomm)) end =
     (match V with Some V => gtag st ncomm V | None => repeat (st_sep st) 14 ++ repeat (st_sep st) ncomm end, Ok tt)).
  { destruct v2 as [(rev, t)|].
    - destruct (print_tag2_told _ _ _ _ _ _ (F _ _ eq_refl) E1) as (V & V1 & V2). exists (Some V). split; assumption.
    - exists None. split; [exact I|]. rewrite repeat_app. reflexivity. }
  assert (C : exists W, optionally (answers_v1 (w_ic w) e) v1 W /\
     match v1 with Some t => print_tag1 st w e t | None => put (repeat (st_sep st) 7) end =
     (match W with Some W => gv1 st W | None => repeat (st_sep st) 7 end, Ok tt)).
  { destruct v1 as [t|].
    - destruct (print_tag1_told _ _ _ _ E2) as (W & W1 & W2). exists (Some W). split; assumption.
    - exists None. split; [exact I|reflexivity]. }
  destruct A as (V & A1 & A2). destruct C as (W & C1 & C2). exists V, W. split; [exact A1|]. split; [exact C1|].
  rewrite A2, C2. rewrite !pthen_ok by reflexivity. cbn [fst snd put]. unfold grow. rewrite <- ?app_assoc. reflexivity.
Qed.
Lemma make_entry_ok st z w e no_dir ncomm f v2 tr v1 :
  (forall rev t, v2 = Some (rev, t) -> fresh t /\ tellable z (w_ic w) ncomm t /\
     (any_version t = V24 -> length (with_id (B "PCNT") (shown t)) <> 1%nat)) ->
  if_any (tellable_v1 (w_ic w) e) v1 ->
  snd (make_entry st z w e no_dir ncomm f v2 tr v1) = Ok tt.
Proof.
  intros F H. unfold make_entry. rewrite put_then. cbn [snd]. rewrite pthen_ok.
  2:{ destruct v2 as [(rev, t)|]; [|reflexivity]. destruct (F _ _ eq_refl) as (F1 & F2 & F3). apply print_tag2_ok; assumption. }
  cbn [snd]. rewrite put_then. cbn [snd]. rewrite pthen_ok; [reflexivity|]. destruct v1 as [t|]; [|reflexivity]. apply print_tag1_ok. exact H.
Qed.

(** ** What is read *)
Lemma report_read_fresh z passes md5 data v2 tr v1 rev t :
  report_read z passes md5 data = Ok (v2, tr, v1) -> v2 = Some (rev, t) -> from_payloads t.
Proof.
  unfold report_read. destruct (sbind _ _ _) as (o & s) eqn:E. cbn [fst]. intros -> ->.
  apply sbind_inv in E as (h & s1 & _ & E). apply sbind_inv in E as (x & s2 & R & E).
  apply sbind_inv in E as (a & s3 & _ & E). apply sbind_inv in E as (b & s4 & _ & E). apply sret_inv in E.
  assert (X : x = Some (rev, t)) by congruence. subst x.
  destruct h as [H|]; [|apply sret_inv in R; discriminate R].
  apply sbind_inv in R as (u & s5 & R & Q). apply sret_inv in Q. assert (u = t) by congruence. subst u.
  eapply read_version_fresh. exact R.
Qed.

Lemma report_file_told st z passes md5 w e no_dir ncomm f s :
  report_file st z passes md5 w e no_dir ncomm f = (s, Ok true) ->
  exists v2 tr v1 V W, report_read z passes md5 (rf_data f) = Ok (v2, tr, v1) /\
    optionally (fun x => answers z (w_ic w) ncomm (fst x) (snd x)) v2 V /\ optionally (answers_v1 (w_ic w) e) v1 W /\
    s = grow st no_dir ncomm (rf_dir f) (rf_name f) (mb_text (len (rf_data f))) V (tr_size tr) (tr_md5 tr) W.
Proof.
  unfold report_file. destruct (report_read z passes md5 (rf_data f)) as [((v2, tr), v1)|e0|u|] eqn:R; intros E; try discriminate E.
  assert (F : forall rev t, v2 = Some (rev, t) -> fresh t) by (intros rev t Q; eapply report_read_fresh; eassumption).
  destruct (make_entry st z w e no_dir ncomm f v2 tr v1) as (s', o) eqn:M.
  assert (O : o = Ok tt) by (destruct o as [[]|e0|u|]; [reflexivity|discriminate E..]).
  destruct (make_entry_told st z w e no_dir ncomm f v2 tr v1 F) as (V & W & A & C & Q); [rewrite M; exact O|].
  exists v2, tr, v1, V, W. split; [reflexivity|]. split; [exact A|]. split; [exact C|]. subst o. congruence.
Qed.
Lemma report_file_ok st z passes md5 w e no_dir ncomm f v2 tr v1 :
  report_read z passes md5 (rf_data f) = Ok (v2, tr, v1) ->
  (forall rev t, v2 = Some (rev, t) -> tellable z (w_ic w) ncomm t /\
     (any_version t = V24 -> length (with_id (B "PCNT") (shown t)) <> 1%nat)) ->
  if_any (tellable_v1 (w_ic w) e) v1 ->
  exists s, report_file st z passes md5 w e no_dir ncomm f = (s, Ok true).
Proof.
  intros R H1 H2. unfold report_file. rewrite R.
  assert (O : snd (make_entry st z w e no_dir ncomm f v2 tr v1) = Ok tt).
  { apply make_entry_ok; [|exact H2]. intros rev t Q. destruct (H1 rev t Q). split; [|auto]. eapply report_read_fresh; eassumption. }
  destruct (make_entry st z w e no_dir ncomm f v2 tr v1) as (s', o). cbn [snd] in O. subst o. eauto.
Qed.
