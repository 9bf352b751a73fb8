(** * Lemmas: playlists written by the m3u command. *)
From Verif Require Import Base M_Ints M_Stream M_Id3v1 M_Payload M_Frame M_Charset M_TextId M_Lookup M_Mp3 M_Read M_Fs M_Tagset M_Process M_Cmds M_Split M_Rename M_Dirent M_M3u
  S_Lookup S_Cmds S_Tagset S_Read S_Dirent S_M3u L_Stream L_Fs L_Lookup L_Read L_Id3v1c L_Cmds L_Cmds5 L_Dirent L_Charset L_M3u L_M3u2 L_M3u3.
#[local] Open Scope N_scope.

(** ** Streams keep their data, and have no bits but the three *)
Definition sound {A} (m : ST A) : Prop := forall s, s_state s < 8 -> s_data (snd (m s)) = s_data s /\ s_state (snd (m s)) < 8.

Lemma lor8 a b : a < 8 -> b < 8 -> N.lor a b < 8.
Proof.
  intros H K. replace 8 with (2 ^ 3) in * by reflexivity. destruct (N.eq_dec (N.lor a b) 0) as [->|NZ]; [reflexivity|].
  apply N.log2_lt_pow2; [lia|]. rewrite N.log2_lor. apply N.max_lub_lt.
  - destruct (N.eq_dec a 0) as [->|]; [reflexivity|]. apply N.log2_lt_pow2; [lia|exact H].
  - destruct (N.eq_dec b 0) as [->|]; [reflexivity|]. apply N.log2_lt_pow2; [lia|exact K].
Qed.
Lemma ldiff8 a : a < 8 -> N.ldiff a eofbit < 8.
Proof.
  intros H. assert (Q : a = 0 \/ a = 1 \/ a = 2 \/ a = 3 \/ a = 4 \/ a = 5 \/ a = 6 \/ a = 7) by lia.
  destruct Q as [-> | [-> | [-> | [-> | [-> | [-> | [-> | ->]]]]]]]; reflexivity.
Qed.

Lemma sound_ret {A} (a : A) : sound (sret a).
Proof. intros s H. split; [reflexivity|exact H]. Qed.
Lemma sound_out {A} (x : outcome A) : sound (fun s => (x, s)).
Proof. intros s H. split; [reflexivity|exact H]. Qed.
Lemma sound_throw {A} e : sound (@sthrow A e).
Proof. intros s H. split; [reflexivity|exact H]. Qed.
Lemma sound_bind {A C} (m : ST A) (f : A -> ST C) : sound m -> (forall a, sound (f a)) -> sound (sbind m f).
Proof.
  intros M F s H. unfold sbind. destruct (M s H) as (D & S1). destruct (m s) as (r, s'). cbn [snd] in *. destruct r as [a|e|u|]; [|split; assumption..].
  destruct (F a s' S1) as (D2 & S2). split; [congruence|exact S2].
Qed.
Lemma sound_get_exc : sound get_exc.
Proof. intros s H. split; [reflexivity|exact H]. Qed.
Lemma sound_set_exc m : sound (set_exc m).
Proof. intros s H. unfold set_exc. destruct (_ =? _); split; try reflexivity; exact H. Qed.
Lemma sound_setstate b : b < 8 -> sound (setstate b).
Proof. intros K s H. unfold setstate. destruct (_ =? _); (split; [reflexivity|]); cbn [snd s_state]; apply lor8; assumption. Qed.
Lemma sound_clear : sound sclear.
Proof. intros s H. split; [reflexivity|]. reflexivity. Qed.
Lemma sound_tellg : sound tellg.
Proof. intros s H. unfold tellg. destruct (_ =? _); split; try reflexivity; exact H. Qed.
Lemma sound_tellg' : sound tellg'.
Proof. intros s H. unfold tellg'. destruct (_ =? _); split; try reflexivity; exact H. Qed.
Lemma sound_seekg p : sound (seekg p).
Proof.
  intros s H. pose proof (ldiff8 (s_state s) H) as L. unfold seekg. cbv zeta.
  destruct (_ =? _); [destruct (_ =? _)|]; (split; [reflexivity|exact L]).
Qed.
Lemma sound_sread n : sound (sread n).
Proof.
  intros s H. unfold sread. destruct (s_state s =? 0).
  - cbv zeta. destruct (_ =? n); [split; reflexivity|].
    match goal with |- context [setstate ?b ?x] => destruct (sound_setstate b eq_refl x eq_refl) as (D & S1); destruct (setstate b x) as (r, s') end.
    cbn [snd s_data] in *. destruct r; (split; [exact D|exact S1]).
  - destruct (sound_setstate failbit eq_refl s H) as (D & S1). destruct (setstate failbit s) as (r, s'). cbn [snd] in *. destruct r; (split; [exact D|exact S1]).
Qed.
Lemma sound_seek_fail p : sound (fun s => match seekg (p s) s with (Ok _, s') => setstate failbit s' | r => r end).
Proof.
  intros s H. destruct (sound_seekg (p s) s H) as (D & S1). destruct (seekg (p s) s) as (r, s'). cbn [snd] in *.
  destruct r; try (split; assumption). destruct (sound_setstate failbit eq_refl s' S1) as (D2 & S2). split; [congruence|exact S2].
Qed.
Lemma sound_seekg_rel off : sound (seekg_rel off).
Proof. intros s H. unfold seekg_rel. destruct (_ <=? _)%Z; [apply sound_seekg; exact H|apply (sound_seek_fail s_pos); exact H]. Qed.
Lemma sound_seekg' h : sound (seekg' h).
Proof. destruct h as [p|]; [apply sound_seekg|apply (sound_seek_fail s_pos)]. Qed.
Lemma sound_eof : sound is_eof.
Proof. intros s H. split; [reflexivity|exact H]. Qed.
Lemma sound_fail : sound is_fail.
Proof. intros s H. split; [reflexivity|exact H]. Qed.
Lemma sound_on_throw {A} (m : ST A) h : sound m -> sound h -> sound (on_throw m h).
Proof.
  intros M K s H. unfold on_throw. destruct (M s H) as (D & S1). destruct (m s) as (r, s'). cbn [snd] in *. destruct r as [a|e|u|]; try (split; assumption).
  destruct (sound_bind h (fun _ => sthrow (A := A) e) K (fun _ => sound_throw e) s' S1) as (D2 & S2). split; [congruence|exact S2].
Qed.

Ltac sound_by k := repeat first
  [ k | apply sound_ret | apply sound_throw | apply sound_get_exc | apply sound_set_exc | apply sound_clear | apply sound_tellg | apply sound_tellg'
  | apply sound_seekg | apply sound_sread | apply sound_seekg_rel | apply sound_seekg' | apply sound_eof | apply sound_fail | apply sound_out
  | apply sound_on_throw
  | apply sound_bind; [|intros ?]
  | match goal with |- sound (if ?b then _ else _) => destruct b | |- sound (match ?x with _ => _ end) => destruct x | |- sound (let _ := _ in _) => cbv zeta end ].

Lemma sound_read_all n : sound (sread_all n).
Proof. unfold sread_all. sound_by fail. Qed.
Lemma sound_parse_header a b c d : sound (parse_header a b c d).
Proof. unfold parse_header. sound_by ltac:(apply sound_read_all). Qed.
Lemma sound_reread b : sound (reread b).
Proof. unfold reread. sound_by fail. Qed.
Lemma sound_xing b : sound (xing_and_lame b).
Proof. unfold xing_and_lame, read_xing, is_lame, read_lame. sound_by ltac:(first [apply sound_read_all | apply sound_reread]). Qed.
Lemma sound_vbri : sound read_vbri.
Proof. unfold read_vbri. sound_by ltac:(apply sound_read_all). Qed.
Lemma sound_vbr n : sound (parse_vbr n).
Proof. unfold parse_vbr. sound_by ltac:(first [apply sound_reread | apply sound_xing | apply sound_vbri]). Qed.
Lemma sound_frame a b c d v : sound (mp3_audio_frame a b c d v).
Proof. unfold mp3_audio_frame. sound_by ltac:(first [apply sound_parse_header | apply sound_vbr]). Qed.
Lemma sound_walk fuel : forall n, sound (frame_walk fuel n).
Proof. induction fuel as [|fuel IH]; intros n; cbn [frame_walk]; sound_by ltac:(first [apply sound_frame | apply IH]). Qed.
Lemma sound_timed fuel h : sound (timed fuel h).
Proof. unfold timed. sound_by ltac:(first [apply sound_frame | apply sound_walk]). Qed.
Lemma sound_cell o : sound (cell o).
Proof. unfold cell. sound_by fail. Qed.
Lemma sound_loop fuel : forall h b0 b1 t, sound (find_sync_loop fuel h b0 b1 t).
Proof.
  induction fuel as [|fuel IH]; intros; cbn [find_sync_loop]; unfold read2, is_sync_buf; sound_by ltac:(first [apply sound_cell | apply IH]).
Qed.
Lemma sound_find_sync : sound find_sync.
Proof.
  intros s H. unfold find_sync. match goal with |- context [?m s] => assert (Q : sound m); [|exact (Q s H)] end.
  unfold read2, is_sync_buf. sound_by ltac:(first [apply sound_cell | apply sound_loop]).
Qed.

Lemma land7 x : x < 8 -> N.land x 7 = 0 -> x = 0.
Proof. intros H. change 7 with (N.ones 3). rewrite N.land_ones, N.mod_small by exact H. auto. Qed.
Lemma seekg_good p s : s_state s = 0 -> seekg p s = (Ok tt, mkIs (s_data s) p (s_exc s) 0).
Proof. intros E. unfold seekg. rewrite E. reflexivity. Qed.
(** The state on the way out: fine, or failed. *)
Definition settled_state (s : istream) : Prop := s_state s = 0 \/ N.land (s_state s) (N.lor failbit badbit) <> 0.
Lemma ldiff_settled x : x < 8 -> N.ldiff x eofbit = 0 \/ N.land (N.ldiff x eofbit) (N.lor failbit badbit) <> 0.
Proof.
  intros H. assert (Q : forallb (fun x => (N.ldiff x eofbit =? 0) || negb (N.land (N.ldiff x eofbit) (N.lor failbit badbit) =? 0)) (map N.of_nat (seq 0 8)) = true) by reflexivity.
  rewrite forallb_forall in Q. assert (I1 : In x (map N.of_nat (seq 0 8))) by (apply in_map_iff; exists (N.to_nat x); split; [lia|apply in_seq; lia]).
  apply Q, orb_true_iff in I1. destruct I1 as [E|E]; [left; now apply N.eqb_eq|right]. apply negb_true_iff, N.eqb_neq in E. exact E.
Qed.
Lemma failed_settled x : N.land (N.lor x failbit) (N.lor failbit badbit) <> 0.
Proof.
  intros E. apply (f_equal (fun n => N.testbit n 2)) in E. rewrite N.land_spec, N.lor_spec, N.bits_0 in E. cbn in E. rewrite orb_true_r in E. discriminate.
Qed.
Lemma seekg_settled p s s' : s_state s < 8 -> seekg p s = (Ok tt, s') -> settled_state s'.
Proof.
  intros H. unfold seekg, settled_state. destruct (N.land (N.ldiff (s_state s) eofbit) (s_exc s) =? 0); [|discriminate].
  destruct (_ =? 0); intros E; apply (f_equal snd) in E; cbn [snd] in E; subst s'; exact (ldiff_settled _ H).
Qed.
Lemma rel_settled o s s' : s_state s < 8 -> seekg_rel o s = (Ok tt, s') -> settled_state s'.
Proof.
  intros H. unfold seekg_rel. destruct (_ <=? _)%Z; [now apply seekg_settled|].
  destruct (seekg (s_pos s) s) as ([[]|x|u|], s1); try discriminate. unfold setstate. destruct (_ =? 0); [|discriminate].
  intros E. apply (f_equal snd) in E. cbn [snd] in E. subst s'. right. apply failed_settled.
Qed.
Lemma walk_settled fuel : forall n s m s', frame_walk fuel n s = (Ok m, s') -> settled_state s'.
Proof.
  induction fuel as [|fuel IH]; intros n s m s'; cbn [frame_walk]; [discriminate|]. intros E.
  apply sbind_inv in E as (h & s1 & _ & E). apply sbind_inv in E as (b & s2 & _ & E). destruct (_ || _).
  - apply sbind_inv in E as (u & s3 & E3 & E). unfold sret in E. injection E as _ <-. unfold sclear in E3. injection E3 as _ <-. now left.
  - apply sbind_inv in E as (f & s3 & _ & E). exact (IH _ _ _ _ E).
Qed.
Lemma timed_settled fuel h s d s' : s_state s < 8 -> timed fuel h s = (Ok d, s') -> settled_state s'.
Proof.
  intros H E. unfold timed in E. apply sbind_inv in E as ((f, vb) & s1 & E1 & E). destruct (frame_duration f) as (num, den).
  assert (S1 : s_state s1 < 8) by (pose proof (sound_frame (nth 0 h 0) (nth 1 h 0) (nth 2 h 0) (nth 3 h 0) true s H) as (_ & Q); rewrite E1 in Q; exact Q).
  destruct vb as [(nf, nb)|].
  - apply sbind_inv in E as ([] & s2 & E2 & E). unfold sret in E. injection E as _ <-. exact (rel_settled _ _ _ S1 E2).
  - apply sbind_inv in E as (nf & s2 & E2 & E). unfold sret in E. injection E as _ <-. exact (walk_settled _ _ _ _ _ E2).
Qed.
Lemma m3u_exc data p d s : get_mp3_duration (mkIs data p goodbit 0) = (Ok d, s) -> s_data s = data /\ settled_state s.
Proof.
  unfold get_mp3_duration. cbn [s_data]. intros E.
  apply sbind_inv in E as (ex & s1 & E1 & E). unfold get_exc in E1. injection E1 as <- <-.
  apply sbind_inv in E as (? & s2 & E2 & E). assert (Q2 : s2 = mkIs data p badbit 0) by (unfold set_exc in E2; cbn in E2; congruence). subst s2. cbn [s_data s_pos s_state s_exc] in E.
  apply sbind_inv in E as (here & s3 & E3 & E). assert (Q3 : here = Some p /\ s3 = mkIs data p badbit 0) by (unfold tellg' in E3; cbn in E3; split; congruence). destruct Q3 as (-> & ->).
  apply sbind_inv in E as (h & s4 & E4 & E). apply sbind_inv in E as (b & s5 & E5 & E). apply sbind_inv in E as (h' & s6 & E6 & E). apply sbind_inv in E as (b' & s7 & E7 & E).
  assert (S4 := sound_sread 4 (mkIs data p badbit 0) eq_refl). rewrite E4 in S4. destruct S4 as (D4 & S4). cbn [snd s_data] in D4, S4.
  assert (S5 := sound_fail s4 S4). rewrite E5 in S5. destruct S5 as (D5 & S5). cbn [snd] in D5, S5.
  assert (S6 : s_data s6 = data /\ s_state s6 < 8).
  { match type of E6 with ?m s5 = _ => assert (Q : sound m) by (sound_by ltac:(first [apply sound_find_sync | apply sound_reread])); pose proof (Q s5 S5) as (Q1 & Q2) end.
    rewrite E6 in Q1, Q2. cbn [snd] in Q1, Q2. split; [congruence|exact Q2]. }
  destruct S6 as (D6 & S6). assert (S7 := sound_fail s6 S6). rewrite E7 in S7. destruct S7 as (D7 & S7). cbn [snd] in D7, S7.
  destruct (_ || _).
  - apply sbind_inv in E as (? & s8 & E8 & E). assert (Q8 : s8 = mkIs (s_data s7) (s_pos s7) (s_exc s7) 0) by (unfold sclear in E8; congruence). subst s8. apply sbind_inv in E as (? & s9 & E9 & E).
    unfold seekg' in E9. rewrite seekg_good in E9 by reflexivity. apply (f_equal snd) in E9. cbn [snd s_data s_exc] in E9. subst s9. unfold sret in E. injection E as _ <-. cbn [s_data s_exc].
    split; [congruence|]. now left.
  - apply sbind_inv in E as (dd & s8 & E8 & E). match type of E8 with ?m s7 = _ => assert (Q := sound_timed _ _ s7 S7 : s_data (snd (m s7)) = _ /\ _) end.
    rewrite E8 in Q. destruct Q as (D8 & S8). cbn [snd] in D8, S8. assert (SS := timed_settled _ _ _ _ _ S7 E8).
    apply sbind_inv in E as (? & s9 & E9 & E). unfold sret in E. injection E as _ <-.
    unfold set_exc in E9. destruct (_ =? 0); [|discriminate E9]. apply (f_equal snd) in E9. cbn [snd] in E9. subst s9.
    cbn [s_data]. split; [congruence|exact SS].
Qed.
(** A stream that has failed stops the search for an ID3v1 tag. *)
Lemma process_settled s v1 s' : settled_state s -> process_id3v1 s = (Ok v1, s') -> s = mkIs (s_data s) (s_pos s) (s_exc s) 0.
Proof.
  intros SS E. unfold process_id3v1 in E. apply sbind_inv in E as (i & s1 & E & _). unfold ends_in_id3v1 in E.
  apply sbind_inv in E as (m & s2 & E2 & E). unfold get_exc in E2. injection E2 as <- <-.
  apply sbind_inv in E as (? & s3 & E3 & _). unfold set_exc in E3.
  destruct (N.eqb_spec (N.land (s_state s) (N.lor failbit badbit)) 0) as [Z|]; [|discriminate E3].
  destruct SS as [E0|C]; [|elim (C Z)]. destruct s as [a b c e]. cbn [s_state s_data s_pos s_exc] in *. now subst e.
Qed.

Lemma text_inv z passes w loc o path data s : m3u_text z passes w loc o path data = Ok s ->
  exists v2 v1 d g, read_tagset z passes data = Ok (v2, v1) /\ lasts data d /\ guess_display_title w loc o v2 v1 = Ok g /\
    s = m3u_entry d (match g with Some s => s | None => stem path end) path.
Proof.
  unfold m3u_text. intros E. destruct ((do v2 <- _;; _) (open_file data goodbit)) as (r, s0) eqn:R. cbn [fst] in E. subst r.
  apply sbind_inv in R as (v2 & s1 & RA & R). apply sbind_inv in R as (d & s2 & GD & R). apply sbind_inv in R as (v1 & s3 & P & R).
  apply sbind_inv in R as (g & s4 & G & R). apply sret_inv in R. subst s.
  apply (read_all_iff z passes goodbit data 0) in RA; [|lia]. destruct RA as (l & TF & R1 & R2 & ->).
  destruct (m3u_exc _ _ _ _ GD) as (D & SS). assert (E2 := process_settled _ _ _ SS P). rewrite D in E2. exists v2, v1, d, g.
  split; [|split; [|split]].
  - assert (RA : read_all_id3v2 z passes (open_file data all_bits) = (Ok v2, mkIs data (tags_end 0 l) all_bits 0))
      by (apply (read_all_iff z passes all_bits data 0); [lia|]; exists l; auto).
    unfold read_tagset, sbind. rewrite RA. destruct (process_id3v1 (mkIs data (tags_end 0 l) all_bits 0)) as (r, s5) eqn:PE.
    assert (Q := process_any data (tags_end 0 l) all_bits (s_pos s2) (s_exc s2)). rewrite <- E2, PE, P in Q. cbn [fst] in Q. subst r. reflexivity.
  - exists l, (s_pos s2), (s_exc s2). split; [exact TF|]. rewrite <- E2. exact GD.
  - unfold lift in G. injection G as G _. exact G.
  - reflexivity.
Qed.

Lemma m3u_tells z passes w loc o src path data s : source loc o src -> char_unit (m3_dst o) = true -> m3u_text z passes w loc o path data = Ok s ->
  exists d title, s = m3u_entry d title path /\ tells_file z passes w src o path data (whole_seconds d) title.
Proof.
  intros S1 C E. destruct (text_inv _ _ _ _ _ _ _ _ E) as (v2 & v1 & d & g & E1 & L & G & ->).
  exists d, (match g with Some s => s | None => stem path end). split; [reflexivity|]. exists v2, v1, d. split; [exact E1|]. split; [exact L|]. split.
  - destruct L as (? & ? & ? & _ & GD). apply nearest_whole. eapply duration_den. exact GD.
  - eapply guess_display; try eassumption. exact (tagset_fresh _ _ _ _ _ E1).
Qed.

Lemma run_playlist z passes w src rsp cwd entries s fs out app utf8 args dst :
  cwd <> [] -> tree fs -> opens fs (resolve cwd out) -> m3u_dst (Ok src) utf8 = Ok dst -> char_unit dst = true ->
  (forall p, is_dir (opened fs (resolve cwd out)) (resolve cwd p) = true -> lists_entries cwd (opened fs (resolve cwd out)) p (entries p)) ->
  Forall (fun p => p <> []) args -> ended (kept app fs (resolve cwd out)) ->
  exists ls, Forall2 (files_below cwd (opened fs (resolve cwd out))) args ls /\
    ((forall p, In p (concat ls) -> resolve cwd p <> resolve cwd out /\
        forall data, find_node (resolve cwd p) fs = Some (File data) -> tellable z passes w (mkM3u None dst rsp) data /\
          forall n t, tells_file z passes w src (mkM3u None dst rsp) p data n t -> listable t p) ->
     exists st fs' text new, m3u_to_file z passes w (Ok src) rsp cwd entries s out app utf8 args fs = (st, (Ok tt, fs')) /\
       only (resolve cwd out) fs fs' /\ find_node (resolve cwd out) fs' = Some (File text) /\
       playlist text = playlist (kept app fs (resolve cwd out)) ++ new /\
       Forall2 (fun p x => exists data n t, find_node (resolve cwd p) fs = Some (File data) /\
                  tells_file z passes w src (mkM3u None dst rsp) p data n t /\ x = (Some (n, t), p)) (concat ls) new).
Proof.
  intros CW T OP MD CU LE AR EN. destruct (run_m3u z passes w (Ok src) rsp cwd entries s fs out app utf8 args dst CW T OP MD LE AR) as (ls & F & R).
  exists ls. split; [exact F|]. intros HT. destruct R as (files & M & H & st & R & _); [intros p Q; exact (proj1 (HT p Q))|].
  set (o := mkM3u None dst rsp) in *. set (k := resolve cwd out) in *.
  assert (G : exists xs, snd (m3u_lines z passes w (Ok src) o files) = Ok tt /\ fst (m3u_lines z passes w (Ok src) o files) = concat (map entry_text xs) /\
     Forall (fun x => listable (snd (fst x)) (snd x)) xs /\
     Forall2 (fun p x => exists data n t, find_node (resolve cwd p) fs = Some (File data) /\ tells_file z passes w src o p data n t /\ x = (Some (n, t), p)) (map fst files) (map entry_info xs)).
  { assert (HT' : forall p, In p (map fst files) -> forall data, find_node (resolve cwd p) fs = Some (File data) -> tellable z passes w o data /\
          forall n t, tells_file z passes w src o p data n t -> listable t p) by (rewrite M; intros p Q; exact (proj2 (HT p Q))).
    clear -H HT' CU. induction H as [|(p, data) files (_ & FD) H IH]; [exists []; repeat split; constructor|].
    destruct IH as (xs & E1 & E2 & L & F2); [intros p' Q; apply HT'; right; exact Q|]. cbn [fst snd] in FD.
    destruct (HT' p (or_introl eq_refl) data FD) as (TL & LI).
    destruct (text_told z passes w (Ok src) o src p data eq_refl CU TL) as (d & title & ET & TF).
    exists ((d, title, p) :: xs). cbn [m3u_lines]. rewrite ET. destruct (m3u_lines z passes w (Ok src) o files) as (t, x). cbn [fst snd map concat] in *.
    split; [exact E1|]. split; [rewrite E2; reflexivity|]. split.
    - constructor; [|exact L]. cbn [fst snd]. exact (LI _ _ TF).
    - constructor; [|exact F2]. exists data, (whole_seconds d), title. split; [exact FD|]. split; [exact TF|]. reflexivity. }
  destruct G as (xs & E1 & E2 & L & F2). cbv zeta in R. rewrite E1, E2 in R.
  exists st, (set_node k (File (kept app fs k ++ header ++ concat (map entry_text xs))) fs), (kept app fs k ++ header ++ concat (map entry_text xs)), (map entry_info xs).
  split; [exact R|]. split; [apply only_set|]. split; [apply find_set_same|]. split; [apply playlist_appended; assumption|].
  rewrite M in F2. exact F2.
Qed.

Lemma run_crash z passes w loc rsp cwd entries src fs out app utf8 args dst :
  cwd <> [] -> tree fs -> opens fs (resolve cwd out) -> m3u_dst loc utf8 = Ok dst ->
  (forall p, is_dir (opened fs (resolve cwd out)) (resolve cwd p) = true -> lists_entries cwd (opened fs (resolve cwd out)) p (entries p)) ->
  Forall (fun p => p <> []) args ->
  exists ls, Forall2 (files_below cwd (opened fs (resolve cwd out))) args ls /\
    ((forall p, In p (concat ls) -> resolve cwd p <> resolve cwd out) ->
     exists st r fs' done rest ss, m3u_to_file z passes w loc rsp cwd entries src out app utf8 args fs = (st, (r, fs')) /\
       concat ls = done ++ rest /\
       Forall2 (fun p s => exists data, find_node (resolve cwd p) fs = Some (File data) /\ m3u_text z passes w loc (mkM3u None dst rsp) p data = Ok s) done ss /\
       find_node (resolve cwd out) fs' = Some (File (kept app fs (resolve cwd out) ++ B "#EXTM3U" ++ [10] ++ concat ss)) /\
       match rest with
       | [] => r = Ok tt
       | p :: _ => exists data x, find_node (resolve cwd p) fs = Some (File data) /\
                     m3u_text z passes w loc (mkM3u None dst rsp) p data = x /\ (forall s, x <> Ok s) /\ r = (let* _ := x in Ok tt)
       end /\
       Forall (fun s => only (resolve cwd out) fs s /\ exists text, find_node (resolve cwd out) s = Some (File text) /\
          (text = [] \/ exists i, text = kept app fs (resolve cwd out) ++ firstn i (B "#EXTM3U" ++ [10] ++ concat ss))) (fs' :: st)).
Proof.
  intros CW T OP MD LE AR. destruct (run_m3u z passes w loc rsp cwd entries src fs out app utf8 args dst CW T OP MD LE AR) as (ls & F & R).
  exists ls. split; [exact F|]. intros NK. destruct (R NK) as (files & M & H & st & R' & P). cbv zeta in R', P. clear R.
  set (o := mkM3u None dst rsp) in *. set (k := resolve cwd out) in *.
  destruct (lines_done z passes w loc o files) as (dn & rs & ss & E & F2 & TX & RS).
  rewrite TX in R', P.
  exists st, (snd (m3u_lines z passes w loc o files)), (set_node k (File (kept app fs k ++ header ++ concat ss)) fs), (map fst dn), (map fst rs), ss.
  split; [exact R'|]. split; [rewrite <- M, E, map_app; reflexivity|].
  assert (HD : Forall (holds cwd k fs) dn /\ Forall (holds cwd k fs) rs) by (rewrite E in H; apply Forall_app in H; exact H).
  destruct HD as (HD & HR). split.
  { clear -F2 HD. induction F2 as [|(p, data) s dn ss EX F2 IH]; [constructor|]. inversion HD as [|? ? (_ & FD) HD']; subst. cbn [map fst snd] in *.
    constructor; [|exact (IH HD')]. exists data. split; assumption. }
  split; [rewrite find_set_same; unfold header; rewrite <- app_assoc; reflexivity|]. split.
  { destruct rs as [|(p, data) rs]; [exact RS|]. inversion HR as [|? ? (_ & FD) HR']; subst. cbn [map fst snd] in *.
    destruct RS as (x & EX & NO & RX). exists data, x. auto. }
  assert (HH : header ++ concat ss = B "#EXTM3U" ++ [10] ++ concat ss) by (unfold header; rewrite <- app_assoc; reflexivity). rewrite HH in *.
  constructor.
  - split; [apply only_set|]. eexists. split; [apply find_set_same|]. right. exists (length (B "#EXTM3U" ++ [10] ++ concat ss)). rewrite firstn_all. reflexivity.
  - eapply Forall_impl; [|exact P]. cbv beta. intros q [-> | (i & ->)].
    + split; [apply only_set|]. exists []. split; [apply find_set_same|left; reflexivity].
    + split; [apply only_set|]. eexists. split; [apply find_set_same|]. right. exists i. reflexivity.
Qed.

(** ** One file; no file *)
Lemma ended_app x r : ended x -> forall info, exists i, forall t, listed info (lines (x ++ r ++ t)) = listed info (lines x) ++ listed i (lines (r ++ t)).
Proof.
  intros [-> | (y & ->)] info; [exists info; reflexivity|].
  destruct (listed_app (lines (y ++ [10])) info (lines [])) as (i0 & _).
  assert (G : forall a info, exists i, forall b, listed info (a ++ b) = listed info a ++ listed i b).
  { clear. induction a as [|l a IH]; intros info; [exists info; reflexivity|]. destruct l as [|c l]; [exact (IH info)|].
    destruct (N.eq_dec c 35) as [->|NE]; [exact (IH _)|]. destruct (IH None) as (i & E). exists i. intros b. cbn [app].
    rewrite !listed_path by exact NE. rewrite E. reflexivity. }
  destruct (G (lines (y ++ [10])) info) as (i & E). exists i. intros t. rewrite <- app_assoc. change ([10] ++ r ++ t) with (10 :: r ++ t).
  rewrite lines_ended. apply E.
Qed.
Lemma glued_playlist x l : ended x -> l <> [] -> ~ In 10 l -> hd 0 l <> 35 ->
  exists i, playlist (x ++ l) = playlist x ++ [(i, l)] /\ playlist ((x ++ l) ++ header) = playlist x ++ [(i, l ++ B "#EXTM3U")].
Proof.
  intros EX NE N0 H0. destruct (ended_app x l EX None) as (i & E). exists i. unfold playlist.
  assert (L1 : lines l = [l]).
  { clear -NE N0. induction l as [|c l IH]; [congruence|]. cbn [lines]. destruct (N.eqb_spec c 10) as [->|]; [elim N0; left; reflexivity|].
    destruct l as [|d l]; [reflexivity|]. rewrite IH; [reflexivity|discriminate|]. intros Q. apply N0. right. exact Q. }
  destruct l as [|c l]; [congruence|]. cbn [hd] in H0. split.
  - specialize (E []). rewrite !app_nil_r in E. rewrite E, L1, listed_path by exact H0. reflexivity.
  - rewrite <- app_assoc, E. unfold header. change (B "#EXTM3U" ++ [10]) with (B "#EXTM3U" ++ 10 :: []).
    rewrite lines_glued; [|exact N0|vm_compute; intuition discriminate]. cbn [app]. rewrite listed_path by exact H0. reflexivity.
Qed.

Lemma run_open z passes w loc rsp cwd entries src fs out app utf8 args dst : opens fs (resolve cwd out) -> m3u_dst loc utf8 = Ok dst ->
  let k := resolve cwd out in let fs1 := set_node k (File (kept app fs k ++ header)) fs in
  snd (m3u_to_file z passes w loc rsp cwd entries src out app utf8 args fs)
  = snd (process_dirent_args cwd (m3u_file z passes w loc (mkM3u None dst rsp) cwd k) entries args fs1).
Proof.
  intros OP MD k fs1. destruct (open_append fs k app OP) as (st1 & E1 & _). unfold m3u_to_file. fold k. rewrite MD. unfold fbind at 1, flift.
  assert (Q : forall g : FS unit, snd ((run _ <- open_out k app;; run _ <- append k (B "#EXTM3U" ++ [10]);; g) fs) = snd (g fs1)).
  { intros g. unfold fbind in *. change (B "#EXTM3U" ++ [10]) with header. destruct (open_out k app fs) as (l0, (r0, s0)). destruct r0; try discriminate E1.
    destruct (append k header s0) as (l2, (r2, s2)). injection E1 as <- -> ->. fold fs1. destruct (g fs1) as (l3, (r3, s3)). reflexivity. }
  specialize (Q (process_dirent_args cwd (m3u_file z passes w loc (mkM3u None dst rsp) cwd k) entries args)).
  clear E1. rewrite <- Q. destruct ((run _ <- open_out k app;; _) fs) as (l, q). reflexivity.
Qed.

Lemma run_none z passes w loc rsp cwd entries src fs out app utf8 dst : opens fs (resolve cwd out) -> m3u_dst loc utf8 = Ok dst ->
  let k := resolve cwd out in
  snd (m3u_to_file z passes w loc rsp cwd entries src out app utf8 [] fs) = (Ok tt, set_node k (File (kept app fs k ++ header)) fs).
Proof. intros OP MD k. exact (run_open z passes w loc rsp cwd entries src fs out app utf8 [] dst OP MD). Qed.

Lemma run_one z passes w loc rsp cwd entries src fs out app utf8 p data dst s : opens fs (resolve cwd out) -> m3u_dst loc utf8 = Ok dst ->
  let k := resolve cwd out in
  find_node (resolve cwd p) (set_node k (File (kept app fs k ++ header)) fs) = Some (File data) -> resolve cwd p <> [] ->
  m3u_text z passes w loc (mkM3u None dst rsp) p data = Ok s ->
  snd (m3u_to_file z passes w loc rsp cwd entries src out app utf8 [p] fs) = (Ok tt, set_node k (File (kept app fs k ++ header ++ s)) fs).
Proof.
  intros OP MD k FD NE MT. rewrite (run_open z passes w loc rsp cwd entries src fs out app utf8 [p] dst OP MD). fold k. unfold process_dirent_args. cbn [each dirent].
  unfold fbind at 1. unfold is_dir at 1. destruct (resolve cwd p) as [|a d] eqn:RP; [congruence|]. rewrite FD. unfold is_regular. rewrite RP, FD. unfold m3u_file. rewrite RP, FD, MT.
  unfold fbind, flift. rewrite append_set. cbn [List.app fret snd]. rewrite <- app_assoc. reflexivity.
Qed.
Lemma opens_nonroot fs k : opens fs k -> k <> [].
Proof. intros (D & _) ->. discriminate D. Qed.

Lemma newline_l z passes w loc rsp cwd entries src fs out app utf8 p data dst d a b : opens fs (resolve cwd out) -> m3u_dst loc utf8 = Ok dst ->
  ended (kept app fs (resolve cwd out)) -> resolve cwd p <> resolve cwd out -> resolve cwd p <> [] -> find_node (resolve cwd p) fs = Some (File data) ->
  m3u_text z passes w loc (mkM3u None dst rsp) p data = Ok (m3u_entry d (a ++ [10] ++ b) p) ->
  listable a b -> ~ In 10 p -> p <> [] -> hd 0 p <> 35 ->
  exists fs' text, snd (m3u_to_file z passes w loc rsp cwd entries src out app utf8 [p] fs) = (Ok tt, fs') /\
    find_node (resolve cwd out) fs' = Some (File text) /\
    playlist text = playlist (kept app fs (resolve cwd out)) ++ [(Some (whole_seconds d, a), b); (None, p)].
Proof.
  intros OP MD EN NK NE FD MT LB NP PE PC. rewrite <- (find_set_other _ _ (File (kept app fs (resolve cwd out) ++ header))) with (1 := NK) in FD.
  rewrite (run_one z passes w loc rsp cwd entries src fs out app utf8 p data dst _ OP MD FD NE MT).
  eexists. eexists. split; [reflexivity|]. split; [apply find_set_same|].
  destruct (ended_app _ header EN None) as (i & E). unfold playlist. rewrite E, listed_header. f_equal.
  replace (m3u_entry d (a ++ [10] ++ b) p) with (m3u_entry d a b ++ (p ++ [10])) by (unfold m3u_entry; rewrite <- !app_assoc; reflexivity).
  rewrite listed_entry by exact LB. rewrite lines_line by exact NP. destruct p as [|c p]; [congruence|]. rewrite listed_path by exact PC. reflexivity.
Qed.

Lemma comment_l z passes w loc rsp cwd entries src fs out app utf8 p data dst d t : opens fs (resolve cwd out) -> m3u_dst loc utf8 = Ok dst ->
  ended (kept app fs (resolve cwd out)) -> resolve cwd p <> resolve cwd out -> resolve cwd p <> [] -> find_node (resolve cwd p) fs = Some (File data) ->
  m3u_text z passes w loc (mkM3u None dst rsp) p data = Ok (m3u_entry d t p) ->
  ~ In 10 t -> ~ In 10 p -> hd 0 p = 35 ->
  exists fs' text, snd (m3u_to_file z passes w loc rsp cwd entries src out app utf8 [p] fs) = (Ok tt, fs') /\
    find_node (resolve cwd out) fs' = Some (File text) /\ playlist text = playlist (kept app fs (resolve cwd out)).
Proof.
  intros OP MD EN NK NE FD MT NT NP PC. rewrite <- (find_set_other _ _ (File (kept app fs (resolve cwd out) ++ header))) with (1 := NK) in FD.
  rewrite (run_one z passes w loc rsp cwd entries src fs out app utf8 p data dst _ OP MD FD NE MT).
  eexists. eexists. split; [reflexivity|]. split; [apply find_set_same|].
  destruct (ended_app _ header EN None) as (i & E). unfold playlist. rewrite E, listed_header. rewrite <- (app_nil_r (listed None _)) at 2. f_equal.
  destruct p as [|c p]; [discriminate PC|]. cbn [hd] in PC. subst c. unfold m3u_entry.
  replace (B "#EXTINF:" ++ decimal (whole_seconds d) ++ B "," ++ t ++ [10] ++ (35 :: p) ++ [10])
    with ((B "#EXTINF:" ++ decimal (whole_seconds d) ++ B "," ++ t) ++ 10 :: ((35 :: p) ++ 10 :: [])) by (rewrite <- !app_assoc; reflexivity).
  rewrite lines_line, lines_line; [reflexivity|exact NP|].
  rewrite !in_app_iff. intros [Q|[Q|[Q|Q]]]; [vm_compute in Q; intuition discriminate|exact (decimal_no _ 10 eq_refl Q)|vm_compute in Q; intuition discriminate|exact (NT Q)].
Qed.

Lemma self_text z passes w loc o p : m3u_text z passes w loc o p header = Ok (m3u_entry (0, 1) (stem p) p).
Proof. unfold m3u_text. vm_compute. reflexivity. Qed.

(** ** Texts that cannot be told *)
Lemma first_unique v2 t u : first_with_both v2 t -> first_with_both v2 u -> t = u.
Proof.
  intros (a & b & E & F & T). revert v2 E. induction a as [|x a IH]; intros v2 -> (c & d & E2 & F2 & U).
  - destruct c as [|y c]; cbn [app] in E2; [congruence|]. injection E2 as <- _. inversion F2; subst. contradiction.
  - inversion F as [|? ? NX FA]; subst. destruct c as [|y c]; cbn [app] in E2; injection E2 as Q E2; [subst x; contradiction|].
    apply (IH FA _ eq_refl). exists c, d. split; [exact E2|]. inversion F2; subst. split; assumption.
Qed.
Lemma told_fun w o v f r r' : told w o v f r -> told w o v f r' -> r = r'.
Proof. intros (t & E & <-) (u & E' & <-). rewrite E in E'. injection E' as ->. reflexivity. Qed.
Lemma artist_fails w loc o v2 v1 t e : Forall fresh v2 -> first_with_both v2 t ->
  (forall f, In f (with_id (artist_id (any_version t)) (shown t)) -> told w o (any_version t) f (Throw e)) ->
  try_title w loc o v2 v1 = Throw e.
Proof.
  intros F FB H. unfold try_title. pose proof (find_both v2 F) as G. destruct (find has_both v2) as [u|]; [|elim (G t FB)].
  destruct G as (G & FU). rewrite (first_unique _ _ _ FB G) in H. assert (NB := G). destruct NB as (x & y & _ & _ & N1 & _).
  destruct (v2_text_told w o u _ FU (kind_artist _) N1) as (f & M & T). rewrite (told_fun _ _ _ _ _ _ T (H f M)). reflexivity.
Qed.
Lemma unknown_l z passes w loc o path data v2 v1 d t e : read_tagset z passes data = Ok (v2, v1) -> lasts data d -> first_with_both v2 t ->
  (forall f, In f (with_id (artist_id (any_version t)) (shown t)) -> told w o (any_version t) f (Throw e)) -> e <> IconvError ->
  m3u_text z passes w loc o path data = Throw e.
Proof.
  intros E L FB H NE. rewrite (text_eq z passes w loc o path data v2 v1 d E L). unfold guess_display_title.
  rewrite (artist_fails w loc o v2 v1 t e (tagset_fresh _ _ _ _ _ E) FB H). destruct e; try reflexivity. congruence.
Qed.
Lemma garbled_l z passes w loc o path data v2 v1 d t : read_tagset z passes data = Ok (v2, v1) -> lasts data d -> first_with_both v2 t ->
  (forall f, In f (with_id (artist_id (any_version t)) (shown t)) -> told w o (any_version t) f (Throw IconvError)) ->
  m3u_text z passes w loc o path data = Ok (m3u_entry d (stem path) path).
Proof.
  intros E L FB H. rewrite (text_eq z passes w loc o path data v2 v1 d E L). unfold guess_display_title.
  rewrite (artist_fails w loc o v2 v1 t _ (tagset_fresh _ _ _ _ _ E) FB H). reflexivity.
Qed.

(** ** A check that a file can be listed (for the examples) *)
Definition no_newline (l : bytes) : bool := negb (existsb (N.eqb 10) l).
Lemma no_newline_l l : no_newline l = true -> ~ In 10 l.
Proof.
  unfold no_newline. intros H Q. assert (E : existsb (N.eqb 10) l = true) by (apply existsb_exists; exists 10; split; [exact Q|reflexivity]).
  rewrite E in H. discriminate H.
Qed.
Definition fine_frame (w : world) (o : m3u_opts) (v : version) (f : frame) : bool :=
  match f_body f with
  | BText t => match text_as_str v (w_ic w) t (m3_dst o) (m3_rsp o) (m3_src o) with Ok a => no_newline a | Throw IconvError => true | _ => false end
  | _ => true
  end.
Definition fine_field (w : world) (src : enc) (o : m3u_opts) (l : bytes) : bool :=
  match to_string (w_ic w) l src (m3_dst o) (m3_rsp o) with Ok a => no_newline a | _ => true end.
Definition fine (w : world) (src : enc) (o : m3u_opts) (v2 : list anytag) (v1 : option id3v1_tag) : bool :=
  forallb (fun t => forallb (fine_frame w o (any_version t)) (shown t)) v2 &&
  match v1 with Some t => fine_field w src o (v_artist t) && fine_field w src o (v_title t) | None => true end.

Lemma with_in id l f : In f (with_id id l) -> In f l.
Proof. unfold with_id. intros H. apply filter_In in H. exact (proj1 H). Qed.
Lemma fine_frames w src o v2 v1 t f : fine w src o v2 v1 = true -> first_with_both v2 t -> In f (shown t) -> fine_frame w o (any_version t) f = true.
Proof.
  unfold fine. intros H (a & b & E & _) M. apply andb_true_iff in H as (H & _). rewrite forallb_forall in H.
  assert (Q : In t v2) by (rewrite E; apply in_elt). apply H in Q. rewrite forallb_forall in Q. exact (Q f M).
Qed.
Lemma fine_told w src o v2 v1 t f a : fine w src o v2 v1 = true -> first_with_both v2 t -> In f (shown t) -> told w o (any_version t) f (Ok a) -> ~ In 10 a.
Proof.
  intros H FB M (x & E & R). pose proof (fine_frames _ _ _ _ _ _ _ H FB M) as Q. unfold fine_frame in Q. rewrite E, R in Q. apply no_newline_l. exact Q.
Qed.
Lemma fine_readable w src o v2 v1 : fine w src o v2 v1 = true -> readable w o v2.
Proof.
  intros H t f r FB M (x & E & R). assert (M' : In f (shown t)) by (destruct M as [M|M]; exact (with_in _ _ _ M)).
  pose proof (fine_frames _ _ _ _ _ _ _ H FB M') as Q. unfold fine_frame in Q. rewrite E, R in Q.
  destruct r as [a|e|u|]; [left; eauto|destruct e; try discriminate Q; right; reflexivity|discriminate Q|discriminate Q].
Qed.
Lemma fine_display w src o v2 v1 name t : fine w src o v2 v1 = true -> ~ In 10 name -> display w src o v2 v1 name t -> ~ In 10 t.
Proof.
  assert (J : forall a b, ~ In 10 a -> ~ In 10 b -> ~ In 10 (a ++ B " - " ++ b)).
  { intros a b A C. rewrite !in_app_iff. intros [Q|[Q|Q]]; [exact (A Q)|vm_compute in Q; intuition discriminate|exact (C Q)]. }
  intros H NN [a b V _ _|a b _ V _ _|_ _|_]; [| |exact NN|exact NN]; apply J.
  - destruct V as (u & f & g & FB & M & T & _). exact (fine_told _ _ _ _ _ _ _ _ H FB (with_in _ _ _ M) T).
  - destruct V as (u & f & g & FB & _ & _ & M & T). exact (fine_told _ _ _ _ _ _ _ _ H FB (with_in _ _ _ M) T).
  - destruct V as (u & -> & T & _). unfold fine in H. apply andb_true_iff in H as (_ & H). apply andb_true_iff in H as (H & _).
    unfold fine_field in H. unfold field_told in T. rewrite T in H. apply no_newline_l. exact H.
  - destruct V as (u & -> & _ & T). unfold fine in H. apply andb_true_iff in H as (_ & H). apply andb_true_iff in H as (_ & H).
    unfold fine_field in H. unfold field_told in T. rewrite T in H. apply no_newline_l. exact H.
Qed.

Lemma fine_file z passes w src o path data v2 v1 d : read_tagset z passes data = Ok (v2, v1) -> lasts data d -> fine w src o v2 v1 = true ->
  ~ In 10 (stem path) -> ~ In 10 path -> path <> [] -> hd 0 path <> 35 ->
  tellable z passes w o data /\ forall n t, tells_file z passes w src o path data n t -> listable t path.
Proof.
  intros E L H NS NP PE PC. split.
  - exists v2, v1, d. split; [exact E|]. split; [exact L|]. eapply fine_readable. exact H.
  - intros n t (v2' & v1' & d' & E' & _ & _ & D). rewrite E in E'. injection E' as <- <-. split; [|split; [exact NP|split; assumption]].
    exact (fine_display _ _ _ _ _ _ _ H NS D).
Qed.
Lemma lasts_by z passes data v2 p q e d : read_all_id3v2 z passes (open_file data goodbit) = (Ok v2, mkIs data p goodbit 0) ->
  get_mp3_duration (mkIs data p goodbit 0) = (Ok d, mkIs data q e 0) -> lasts data d.
Proof.
  intros RA GD. apply (read_all_iff z passes goodbit data 0) in RA; [|lia]. destruct RA as (l & TF & _ & _ & E).
  injection E as ->. exists l, q, e. split; assumption.
Qed.

(** ** In the form of the theorems *)
Lemma append_l z passes w loc rsp cwd entries src fs out utf8 dst x l :
  is_dir fs (resolve cwd out) = false -> find_node (resolve cwd out) fs = Some (File (x ++ l)) -> m3u_dst loc utf8 = Ok dst ->
  ended x -> l <> [] -> ~ In 10 l -> hd 0 l <> 35 ->
  exists fs' text i, snd (m3u_to_file z passes w loc rsp cwd entries src out true utf8 [] fs) = (Ok tt, fs') /\
    find_node (resolve cwd out) fs' = Some (File text) /\
    playlist (x ++ l) = playlist x ++ [(i, l)] /\ playlist text = playlist x ++ [(i, l ++ B "#EXTM3U")].
Proof.
  intros D E MD EX NE NL NC. destruct (glued_playlist x l EX NE NL NC) as (i & P1 & P2).
  assert (OP : opens fs (resolve cwd out)) by (split; [exact D|left; eauto]).
  rewrite (run_none z passes w loc rsp cwd entries src fs out true utf8 dst OP MD). unfold kept. rewrite E.
  eexists. eexists. exists i. split; [reflexivity|]. split; [apply find_set_same|]. split; assumption.
Qed.
Lemma itself_l z passes w loc rsp cwd entries src fs out utf8 dst :
  opens fs (resolve cwd out) -> m3u_dst loc utf8 = Ok dst -> listable (stem out) out ->
  exists fs' text, snd (m3u_to_file z passes w loc rsp cwd entries src out false utf8 [out] fs) = (Ok tt, fs') /\
    find_node (resolve cwd out) fs' = Some (File text) /\ playlist text = [(Some (0, stem out), out)].
Proof.
  intros OP MD LI. assert (K : kept false fs (resolve cwd out) = []) by (unfold kept; destruct (find_node _ _) as [[|]|]; reflexivity).
  rewrite (run_one z passes w loc rsp cwd entries src fs out false utf8 out header dst (m3u_entry (0, 1) (stem out) out) OP MD).
  - rewrite K. eexists. eexists. split; [reflexivity|]. split; [apply find_set_same|]. cbn [app]. unfold playlist. rewrite listed_header.
    rewrite <- (app_nil_r (m3u_entry _ _ _)). rewrite listed_entry by exact LI. reflexivity.
  - rewrite K. apply find_set_same.
  - exact (opens_nonroot _ _ OP).
  - apply self_text.
Qed.
Lemma locale_fails z passes w global system rsp cwd entries src out app args fs :
  existsb (N.eqb 46) global = true -> existsb (N.eqb 46) system = true ->
  m3u_to_file z passes w (enc_of_locale global system) rsp cwd entries src out app false args fs = ([], (Throw RangeError, fs)).
Proof. intros G H. unfold m3u_to_file, m3u_dst. rewrite locale_l, G, H. reflexivity. Qed.
Lemma entry_l z passes w o src path data s : char_unit (m3_dst o) = true -> m3u_text z passes w (Ok src) o path data = Ok s -> m3_src o = None ->
  exists n title, s = B "#EXTINF:" ++ decimal n ++ B "," ++ title ++ [10] ++ path ++ [10] /\ tells_file z passes w src o path data n title.
Proof.
  intros C E S0. destruct (m3u_tells z passes w (Ok src) o src path data s) as (d & t & -> & T); [unfold source; rewrite S0; reflexivity|exact C|exact E|].
  exists (whole_seconds d), t. split; [reflexivity|exact T].
Qed.
Lemma total_l z passes w o src path data : char_unit (m3_dst o) = true -> m3_src o = None -> tellable z passes w o data ->
  exists s, m3u_text z passes w (Ok src) o path data = Ok s.
Proof.
  intros C S0 T. destruct (text_told z passes w (Ok src) o src path data) as (d & t & E & _); [unfold source; rewrite S0; reflexivity|exact C|exact T|]. eauto.
Qed.
Lemma nearest_one n m d : 0 < snd d -> nearest n d -> nearest m d -> n = m.
Proof. unfold nearest. destruct d as (a, q). cbn [fst snd]. intros P (A & B0) (C & D). nia. Qed.
